(** Api.v -- one step of an FMU under an API call, for FMI 3.0 and FMI 2.0, with the
    FMU-state functions (which own memory outside the instance).

    A [Sys] is a live instance together with the FMU-state objects allocated so far.
    An fmi3FMUState/fmi2FMUstate is [None] (NULL) or [Some k], the k-th allocated
    object; a freed object is [None] in the heap and its use is [UB].  Allocation is
    assumed to succeed.  The size of ModelInstance is the parameter [szof]. *)

From Coq Require Import List NArith ZArith Bool Arith.
From Verif Require Import Base Instance ModelIface Core Fmi3 Fmi2.
Import ListNotations.
Set Implicit Arguments.

Record Sys (F D : Type) := mkSys { sinst : Inst F D; heap : list (option (Inst F D)) }.
Arguments mkSys {F D}. Arguments sinst {F D}. Arguments heap {F D}.

(** A byte array holding a serialized state: its size and, if it is the image of a
    ModelInstance written by SerializeFMUState, that instance. *)
Record Blob (F D : Type) := mkBlob { bsize : N; bimage : option (Inst F D) }.
Arguments mkBlob {F D}. Arguments bsize {F D}. Arguments bimage {F D}.

(** Contents of the output arguments after a call. *)
Inductive Out (F D : Type) :=
| ONone
| OVals (t : VType) (values : Buf (val F t))
| OBin (sizes : Buf nat) (values : Buf bytes)
| OClocks (values : Buf bool)
| OBools2 (values : Buf Z)
| OInterval (intervals : Buf F) (qualifiers : Buf Z)
| OFloats (values : Buf F)
| OCount (n : option nat)
| OSize (n : option N)
| OHandle (h : option nat)
| OBlob (b : option (Blob F D))
| OEventInfo (e : option (EventInfo F))
| OFlags (f : option (bool * bool))
| ODoStep (o : DoStepOut F)
| OReal (v : option F)
| OBool (b : option bool).
Arguments ONone {F D}. Arguments OVals {F D}. Arguments OBin {F D}. Arguments OClocks {F D}.
Arguments OBools2 {F D}. Arguments OInterval {F D}. Arguments OFloats {F D}. Arguments OCount {F D}.
Arguments OSize {F D}. Arguments OHandle {F D}. Arguments OBlob {F D}. Arguments OEventInfo {F D}.
Arguments OFlags {F D}. Arguments ODoStep {F D}. Arguments OReal {F D}. Arguments OBool {F D}.

(** Calls of the FMI 3.0 API on an instance (src/fmi3Functions.c). *)
Inductive Op3 (F D : Type) :=
| O3SetDebugLogging (loggingOn : bool) (n : nat) (categories : Buf (option bytes))
| O3EnterInitializationMode (start : F) (stopDefined : bool) (stop : F)
| O3ExitInitializationMode
| O3EnterEventMode
| O3Terminate
| O3Reset
| O3Get (t : VType) (vrs : Buf N) (nvr : nat) (values : Buf (val F t)) (nValues : nat)
| O3Set (t : VType) (vrs : Buf N) (nvr : nat) (values : Buf (val F t)) (nValues : nat)
| O3GetBinary (vrs : Buf N) (nvr : nat) (sizes : Buf nat) (values : Buf bytes) (nValues : nat)
| O3SetBinary (vrs : Buf N) (nvr : nat) (sizes : Buf nat) (values : Buf (option bytes)) (nValues : nat)
| O3GetClock (vrs : Buf N) (nvr : nat) (values : Buf bool)
| O3SetClock (vrs : Buf N) (nvr : nat) (values : Buf bool)
| O3GetFMUState (p : bool) (h : option nat)                    (* p: FMUState != NULL; h: *FMUState *)
| O3SetFMUState (h : option nat)
| O3FreeFMUState (p : bool) (h : option nat)
| O3SerializedFMUStateSize (p : bool)
| O3SerializeFMUState (h : option nat) (dst : option (Blob F D)) (size : N)
| O3DeserializeFMUState (src : option (Blob F D)) (size : N) (p : bool) (h : option nat)
| O3GetDirectionalDerivative (unknowns : Buf N) (nu : nat) (knowns : Buf N) (nk : nat) (seed sens : Buf F)
| O3GetAdjointDerivative (unknowns : Buf N) (nu : nat) (knowns : Buf N) (nk : nat) (seed sens : Buf F)
| O3EnterConfigurationMode
| O3ExitConfigurationMode
| O3GetIntervalDecimal (vrs : Buf N) (nvr : nat) (intervals : Buf F) (qualifiers : Buf Z)
| O3NotImplemented                                             (* see fmi3NotImplemented *)
| O3UpdateDiscreteStates
| O3EnterContinuousTimeMode
| O3CompletedIntegratorStep (p1 p2 : option unit)
| O3SetTime (t : F)
| O3SetContinuousStates (x : Buf F) (n : nat)
| O3GetContinuousStateDerivatives (x : Buf F) (n : nat)
| O3GetEventIndicators (x : Buf F) (n : nat)
| O3GetContinuousStates (x : Buf F) (n : nat)
| O3GetNominalsOfContinuousStates (x : Buf F) (n : nat)
| O3GetNumberOfEventIndicators (p : bool)
| O3GetNumberOfContinuousStates (p : bool)
| O3EnterStepMode
| O3GetOutputDerivatives (vrs : Buf N) (nvr : nat) (orders : Buf Z) (values : Buf F)
| O3DoStep (ccp h : F) (p1 p2 p3 p4 : bool)
| O3ActivateModelPartition (vr : N) (t : F).
Arguments O3SetDebugLogging {F D}. Arguments O3EnterInitializationMode {F D}.
Arguments O3ExitInitializationMode {F D}. Arguments O3EnterEventMode {F D}. Arguments O3Terminate {F D}.
Arguments O3Reset {F D}. Arguments O3Get {F D}. Arguments O3Set {F D}. Arguments O3GetBinary {F D}.
Arguments O3SetBinary {F D}. Arguments O3GetClock {F D}. Arguments O3SetClock {F D}.
Arguments O3GetFMUState {F D}. Arguments O3SetFMUState {F D}. Arguments O3FreeFMUState {F D}.
Arguments O3SerializedFMUStateSize {F D}. Arguments O3SerializeFMUState {F D}.
Arguments O3DeserializeFMUState {F D}. Arguments O3GetDirectionalDerivative {F D}.
Arguments O3GetAdjointDerivative {F D}. Arguments O3EnterConfigurationMode {F D}.
Arguments O3ExitConfigurationMode {F D}. Arguments O3GetIntervalDecimal {F D}.
Arguments O3NotImplemented {F D}. Arguments O3UpdateDiscreteStates {F D}.
Arguments O3EnterContinuousTimeMode {F D}. Arguments O3CompletedIntegratorStep {F D}.
Arguments O3SetTime {F D}. Arguments O3SetContinuousStates {F D}.
Arguments O3GetContinuousStateDerivatives {F D}. Arguments O3GetEventIndicators {F D}.
Arguments O3GetContinuousStates {F D}. Arguments O3GetNominalsOfContinuousStates {F D}.
Arguments O3GetNumberOfEventIndicators {F D}. Arguments O3GetNumberOfContinuousStates {F D}.
Arguments O3EnterStepMode {F D}. Arguments O3GetOutputDerivatives {F D}. Arguments O3DoStep {F D}.
Arguments O3ActivateModelPartition {F D}.

(** Calls of the FMI 2.0 API on a component (src/fmi2Functions.c).  [O2Get]/[O2Set] with
    TFloat64, TInt32, TString are the Real, Integer and String functions; the other types
    have no function in FMI 2.0 (the definition is generic, such calls just do not occur). *)
Inductive Op2 (F D : Type) :=
| O2SetDebugLogging (loggingOn : bool) (n : nat) (categories : Buf (option bytes))
| O2SetupExperiment (start : F) (stopDefined : bool) (stop : F)
| O2EnterInitializationMode
| O2ExitInitializationMode
| O2Terminate
| O2Reset
| O2Get (t : VType) (vrs : Buf N) (nvr : nat) (values : Buf (val F t))
| O2Set (t : VType) (vrs : Buf N) (nvr : nat) (values : Buf (val F t))
| O2GetBoolean (vrs : Buf N) (nvr : nat) (values : Buf Z)
| O2SetBoolean (vrs : Buf N) (nvr : nat) (values : Buf Z)
| O2GetFMUstate (p : bool) (h : option nat)
| O2SetFMUstate (h : option nat)
| O2FreeFMUstate (p : bool) (h : option nat)
| O2SerializedFMUstateSize (p : bool)
| O2SerializeFMUstate (h : option nat) (dst : option (Blob F D)) (size : N)
| O2DeSerializeFMUstate (src : option (Blob F D)) (size : N) (p : bool) (h : option nat)
| O2GetDirectionalDerivative (unknowns : Buf N) (nu : nat) (knowns : Buf N) (nk : nat) (seed sens : Buf F)
| O2SetRealInputDerivatives
| O2GetRealOutputDerivatives (vrs : Buf N) (nvr : nat) (orders : Buf Z) (values : Buf F)
| O2CancelStep
| O2DoStep (ccp h : F)
| O2GetStatus (k : StatusKind)                                 (* also Integer and String *)
| O2GetRealStatus (k : StatusKind) (p : bool)
| O2GetBooleanStatus (k : StatusKind) (p : bool)
| O2EnterEventMode
| O2NewDiscreteStates (p : bool)
| O2EnterContinuousTimeMode
| O2CompletedIntegratorStep (p1 p2 : option unit)
| O2SetTime (t : F)
| O2SetContinuousStates (x : Buf F) (n : nat)
| O2GetDerivatives (x : Buf F) (n : nat)
| O2GetEventIndicators (x : Buf F) (n : nat)
| O2GetContinuousStates (x : Buf F) (n : nat)
| O2GetNominals (x : Buf F) (n : nat).
Arguments O2SetDebugLogging {F D}. Arguments O2SetupExperiment {F D}.
Arguments O2EnterInitializationMode {F D}. Arguments O2ExitInitializationMode {F D}.
Arguments O2Terminate {F D}. Arguments O2Reset {F D}. Arguments O2Get {F D}. Arguments O2Set {F D}.
Arguments O2GetBoolean {F D}. Arguments O2SetBoolean {F D}. Arguments O2GetFMUstate {F D}.
Arguments O2SetFMUstate {F D}. Arguments O2FreeFMUstate {F D}. Arguments O2SerializedFMUstateSize {F D}.
Arguments O2SerializeFMUstate {F D}. Arguments O2DeSerializeFMUstate {F D}.
Arguments O2GetDirectionalDerivative {F D}. Arguments O2SetRealInputDerivatives {F D}.
Arguments O2GetRealOutputDerivatives {F D}. Arguments O2CancelStep {F D}. Arguments O2DoStep {F D}.
Arguments O2GetStatus {F D}. Arguments O2GetRealStatus {F D}. Arguments O2GetBooleanStatus {F D}.
Arguments O2EnterEventMode {F D}. Arguments O2NewDiscreteStates {F D}.
Arguments O2EnterContinuousTimeMode {F D}. Arguments O2CompletedIntegratorStep {F D}.
Arguments O2SetTime {F D}. Arguments O2SetContinuousStates {F D}. Arguments O2GetDerivatives {F D}.
Arguments O2GetEventIndicators {F D}. Arguments O2GetContinuousStates {F D}. Arguments O2GetNominals {F D}.

Section Api.
  Context {F : Type} {NF : Num F} (m : Model F) (szof : N).
  Notation D := (md m).
  Open Scope sw_scope.

  (** State+writer functions on the whole system. *)
  Definition SF (X : Type) : Type := SW (Event F) (Sys F D) X.

  (** Lift a function on the instance. *)
  Definition onInst {X} (f : AF F D X) : SF X :=
    fun s => match f (sinst s) with
             | Done (x, i, t) => Done (x, mkSys i (heap s), t)
             | UB => UB
             | NoFuel => NoFuel
             end.

  (** [*h] for an FMU-state pointer: NULL, or a live object; a freed one is UB. *)
  Definition deref (h : nat) : SF (Inst F D) :=
    fun s => match nth_error (heap s) h with
             | Some (Some i) => Done (i, s, [])
             | _ => UB
             end.

  (** malloc/calloc of a ModelInstance with the given contents. *)
  Definition alloc (i : Inst F D) : SF nat :=
    fun s => Done (length (heap s), mkSys (sinst s) (heap s ++ [Some i]), []).
  Definition store (h : nat) (c : option (Inst F D)) : SF unit :=
    fun s => match nth_error (heap s) h with
             | Some (Some _) => Done (tt, mkSys (sinst s) (upd (heap s) h c), [])
             | _ => UB
             end.

  (** cosimulation.c:591-598 with s_reallocate (122-142): a non-NULL *FMUState is
      reallocated; the old pointer becomes invalid.  [p]: FMUState is non-NULL. *)
  Definition getFMUState (p : bool) (h : option nat) : SF (option nat) :=
    if negb p then ubM else
    let* i := (fun s => Done (sinst s, s, [])) in
    match h with
    | None => let* k := alloc i in ret (Some k)
    | Some h => store h None ;;; let* k := alloc i in ret (Some k)
    end.

  (** fmi3Functions.c:772 / fmi2Functions.c:376, the argument of setFMUState *)
  Definition setFMUStateS (env : Env) (h : option nat) : SF Status :=
    match h with
    | None => onInst (setFMUState m env None)
    | Some h => let* i := deref h in onInst (setFMUState m env (Some i))
    end.

  (** fmi3Functions.c:778-779 / fmi2Functions.c:382-383 *)
  Definition freeFMUState (p : bool) (h : option nat) : SF (option nat) :=
    if negb p then ubM else
    match h with
    | None => ret None
    | Some h => store h None ;;; ret None
    end.

  (** fmi3Functions.c:802-810 / fmi2Functions.c:398-406 *)
  Definition serializeFMUState (env : Env) (h : option nat) (dst : option (Blob F D)) (size : N)
    : SF (Status * option (Blob F D)) :=
    let* b := onInst (nullPointer m env h) in
    if b then ret (Error, dst) else
    let* b := onInst (invalidNumber m env size szof) in
    if b then ret (Error, dst) else
    match h, dst with
    | Some h, Some d =>
        let* i := deref h in
        if N.ltb (bsize d) szof then ubM
        else ret (OK, Some (mkBlob (bsize d) (Some i)))
    | _, _ => ubM
    end.

  (** fmi3Functions.c:821-833 / fmi2Functions.c:414-422.  An array that is not the image
      of an instance is not modelled (UB). *)
  Definition deserializeFMUState (env : Env) (src : option (Blob F D)) (size : N) (p : bool) (h : option nat)
    : SF (Status * option nat) :=
    let* b := onInst (invalidNumber m env size szof) in
    if b then ret (Error, h) else
    if negb p then ubM else
    match src with
    | Some b =>
        match bimage b with
        | Some i =>
            if N.ltb (bsize b) szof then ubM else
            match h with
            | None => let* k := alloc i in ret (OK, Some k)
            | Some h => store h (Some i) ;;; ret (OK, Some h)
            end
        | None => ubM
        end
    | None => ubM
    end.

  (** BEGIN_FUNCTION(F) around functions on the system (213-217 / 168-172). *)
  Definition BEGIN3S {X} (env : Env) (mask : N) (x : X) (k : SF (Status * X)) : SF (Status * X) :=
    let* b := onInst (allowedState m env mask) in
    if b then k else onInst (CALLk m OK Error x (fun _ => ret (OK, x))).
  Definition BEGIN2S {X} (env : Env) (mask : N) (x : X) (k : SF (Status * X)) : SF (Status * X) :=
    let* b := onInst (allowedState2 m env mask) in
    if b then k else onInst (CALLk m OK Error x (fun _ => ret (OK, x))).

  (** fmi3Functions.c:764-836 *)
  Definition fmi3GetFMUState (env : Env) (p : bool) (h : option nat) : SF (Status * option nat) :=
    BEGIN3S env MASK_AnyState h (let* h' := getFMUState p h in ret (OK, h')).
  Definition fmi3SetFMUState (env : Env) (h : option nat) : SF (Status * unit) :=
    BEGIN3S env MASK_AnyState tt (
      let* s := setFMUStateS env h in onInst (CALLk m OK s tt (fun st => ret (st, tt)))).
  Definition fmi3FreeFMUState (env : Env) (p : bool) (h : option nat) : SF (Status * option nat) :=
    BEGIN3S env MASK_AnyState h (let* h' := freeFMUState p h in ret (OK, h')).
  Definition fmi3SerializedFMUStateSize (env : Env) (p : bool) : SF (Status * option N) :=
    BEGIN3S env MASK_AnyState None (if p then ret (OK, Some szof) else ubM).
  Definition fmi3SerializeFMUState (env : Env) (h : option nat) (dst : option (Blob F D)) (size : N)
    : SF (Status * option (Blob F D)) :=
    BEGIN3S env MASK_AnyState dst (serializeFMUState env h dst size).
  Definition fmi3DeserializeFMUState (env : Env) (src : option (Blob F D)) (size : N) (p : bool) (h : option nat)
    : SF (Status * option nat) :=
    BEGIN3S env MASK_AnyState h (deserializeFMUState env src size p h).

  (** fmi2Functions.c:368-425; the statuses of getFMUState and setFMUState are ignored *)
  Definition fmi2GetFMUstate (env : Env) (p : bool) (h : option nat) : SF (Status * option nat) :=
    BEGIN2S env MASK2_FMUstate h (let* h' := getFMUState p h in ret (OK, h')).
  Definition fmi2SetFMUstate (env : Env) (h : option nat) : SF (Status * unit) :=
    BEGIN2S env MASK2_FMUstate tt (setFMUStateS env h ;;; ret (OK, tt)).
  Definition fmi2FreeFMUstate (env : Env) (p : bool) (h : option nat) : SF (Status * option nat) :=
    BEGIN2S env MASK2_FMUstate h (let* h' := freeFMUState p h in ret (OK, h')).
  Definition fmi2SerializedFMUstateSize (env : Env) (p : bool) : SF (Status * option N) :=
    BEGIN2S env MASK2_FMUstate None (if p then ret (OK, Some szof) else ubM).
  Definition fmi2SerializeFMUstate (env : Env) (h : option nat) (dst : option (Blob F D)) (size : N)
    : SF (Status * option (Blob F D)) :=
    BEGIN2S env MASK2_FMUstate dst (serializeFMUState env h dst size).
  Definition fmi2DeSerializeFMUstate (env : Env) (src : option (Blob F D)) (size : N) (p : bool) (h : option nat)
    : SF (Status * option nat) :=
    BEGIN2S env MASK2_FMUstate h (deserializeFMUState env src size p h).

  (** Attach the output arguments. *)
  Definition outS {X} (f : SF (Status * X)) (o : X -> Out F D) : SF (Status * Out F D) :=
    let* r := f in ret (fst r, o (snd r)).
  Definition outI {X} (f : AF F D (Status * X)) (o : X -> Out F D) : SF (Status * Out F D) :=
    outS (onInst f) o.
  Definition none_out : unit -> Out F D := fun _ => ONone.

  (** ** One FMI 3.0 call on a live instance; [fuel] bounds the iterations of the loop
      in fmi3DoStep. *)
  Definition exec3 (fuel : nat) (env : Env) (o : Op3 F D) : SF (Status * Out F D) :=
    match o with
    | O3SetDebugLogging b n c => outI (fmi3SetDebugLogging m env b n c) none_out
    | O3EnterInitializationMode a b c => outI (fmi3EnterInitializationMode m env a b c) none_out
    | O3ExitInitializationMode => outI (fmi3ExitInitializationMode m env) none_out
    | O3EnterEventMode => outI (fmi3EnterEventMode m env) none_out
    | O3Terminate => outI (fmi3Terminate m env) none_out
    | O3Reset => outI (fmi3Reset m env) none_out
    | O3Get t vrs nvr v nv => outI (fmi3Get m env t vrs nvr v nv) (OVals t)
    | O3Set t vrs nvr v nv => outI (fmi3Set m env t vrs nvr v nv) none_out
    | O3GetBinary vrs nvr s v nv => outI (fmi3GetBinary m env vrs nvr s v nv) (fun p => OBin (fst p) (snd p))
    | O3SetBinary vrs nvr s v nv => outI (fmi3SetBinary m env vrs nvr s v nv) none_out
    | O3GetClock vrs nvr v => outI (fmi3GetClock m env vrs nvr v) OClocks
    | O3SetClock vrs nvr v => outI (fmi3SetClock m env vrs nvr v) none_out
    | O3GetFMUState p h => outS (fmi3GetFMUState env p h) OHandle
    | O3SetFMUState h => outS (fmi3SetFMUState env h) none_out
    | O3FreeFMUState p h => outS (fmi3FreeFMUState env p h) OHandle
    | O3SerializedFMUStateSize p => outS (fmi3SerializedFMUStateSize env p) OSize
    | O3SerializeFMUState h d n => outS (fmi3SerializeFMUState env h d n) OBlob
    | O3DeserializeFMUState b n p h => outS (fmi3DeserializeFMUState env b n p h) OHandle
    | O3GetDirectionalDerivative u nu k nk s d => outI (fmi3GetDirectionalDerivative m env u nu k nk s d) OFloats
    | O3GetAdjointDerivative u nu k nk s d => outI (fmi3GetAdjointDerivative m env u nu k nk s d) OFloats
    | O3EnterConfigurationMode => outI (fmi3EnterConfigurationMode m env) none_out
    | O3ExitConfigurationMode => outI (fmi3ExitConfigurationMode m env) none_out
    | O3GetIntervalDecimal vrs nvr i q => outI (fmi3GetIntervalDecimal m env vrs nvr i q) (fun p => OInterval (fst p) (snd p))
    | O3NotImplemented => outI (fmi3NotImplemented m env) none_out
    | O3UpdateDiscreteStates => outI (fmi3UpdateDiscreteStates m env) OEventInfo
    | O3EnterContinuousTimeMode => outI (fmi3EnterContinuousTimeMode m env) none_out
    | O3CompletedIntegratorStep p1 p2 => outI (fmi3CompletedIntegratorStep m env p1 p2) OFlags
    | O3SetTime t => outI (fmi3SetTime m env t) none_out
    | O3SetContinuousStates x n => outI (fmi3SetContinuousStates m env x n) none_out
    | O3GetContinuousStateDerivatives x n => outI (fmi3GetContinuousStateDerivatives m env x n) OFloats
    | O3GetEventIndicators x n => outI (fmi3GetEventIndicators m env x n) OFloats
    | O3GetContinuousStates x n => outI (fmi3GetContinuousStates m env x n) OFloats
    | O3GetNominalsOfContinuousStates x n => outI (fmi3GetNominalsOfContinuousStates m env x n) OFloats
    | O3GetNumberOfEventIndicators p => outI (fmi3GetNumberOfEventIndicators m env p) OCount
    | O3GetNumberOfContinuousStates p => outI (fmi3GetNumberOfContinuousStates m env p) OCount
    | O3EnterStepMode => outI (fmi3EnterStepMode m env) none_out
    | O3GetOutputDerivatives vrs nvr o v => outI (fmi3GetOutputDerivatives m env vrs nvr o v) OFloats
    | O3DoStep c h p1 p2 p3 p4 => outI (fmi3DoStep m env fuel c h p1 p2 p3 p4) ODoStep
    | O3ActivateModelPartition vr t => outI (fmi3ActivateModelPartition m env vr t) none_out
    end.

  (** ** One FMI 2.0 call on a live component. *)
  Definition exec2 (fuel : nat) (env : Env) (o : Op2 F D) : SF (Status * Out F D) :=
    match o with
    | O2SetDebugLogging b n c => outI (fmi2SetDebugLogging m env b n c) none_out
    | O2SetupExperiment a b c => outI (fmi2SetupExperiment m env a b c) none_out
    | O2EnterInitializationMode => outI (fmi2EnterInitializationMode m env) none_out
    | O2ExitInitializationMode => outI (fmi2ExitInitializationMode m env) none_out
    | O2Terminate => outI (fmi2Terminate m env) none_out
    | O2Reset => outI (fmi2Reset m env) none_out
    | O2Get t vrs nvr v => outI (fmi2GetV m env t vrs nvr v) (OVals t)
    | O2Set t vrs nvr v => outI (fmi2SetV m env t vrs nvr v) none_out
    | O2GetBoolean vrs nvr v => outI (fmi2GetBoolean m env vrs nvr v) OBools2
    | O2SetBoolean vrs nvr v => outI (fmi2SetBoolean m env vrs nvr v) none_out
    | O2GetFMUstate p h => outS (fmi2GetFMUstate env p h) OHandle
    | O2SetFMUstate h => outS (fmi2SetFMUstate env h) none_out
    | O2FreeFMUstate p h => outS (fmi2FreeFMUstate env p h) OHandle
    | O2SerializedFMUstateSize p => outS (fmi2SerializedFMUstateSize env p) OSize
    | O2SerializeFMUstate h d n => outS (fmi2SerializeFMUstate env h d n) OBlob
    | O2DeSerializeFMUstate b n p h => outS (fmi2DeSerializeFMUstate env b n p h) OHandle
    | O2GetDirectionalDerivative u nu k nk s d => outI (fmi2GetDirectionalDerivative m env u nu k nk s d) OFloats
    | O2SetRealInputDerivatives => outI (fmi2SetRealInputDerivatives m env) none_out
    | O2GetRealOutputDerivatives vrs nvr o v => outI (fmi2GetRealOutputDerivatives m env vrs nvr o v) OFloats
    | O2CancelStep => outI (fmi2CancelStep m env) none_out
    | O2DoStep c h => outI (fmi2DoStep m env fuel c h) none_out
    | O2GetStatus k => outI (fmi2GetStatus m env k) none_out
    | O2GetRealStatus k p => outI (fmi2GetRealStatus m env k p) OReal
    | O2GetBooleanStatus k p => outI (fmi2GetBooleanStatus m env k p) OBool
    | O2EnterEventMode => outI (fmi2EnterEventMode m env) none_out
    | O2NewDiscreteStates p => outI (fmi2NewDiscreteStates m env p) OEventInfo
    | O2EnterContinuousTimeMode => outI (fmi2EnterContinuousTimeMode m env) none_out
    | O2CompletedIntegratorStep p1 p2 => outI (fmi2CompletedIntegratorStep m env p1 p2) OFlags
    | O2SetTime t => outI (fmi2SetTime m env t) none_out
    | O2SetContinuousStates x n => outI (fmi2SetContinuousStates m env x n) none_out
    | O2GetDerivatives x n => outI (fmi2GetDerivatives m env x n) OFloats
    | O2GetEventIndicators x n => outI (fmi2GetEventIndicators m env x n) OFloats
    | O2GetContinuousStates x n => outI (fmi2GetContinuousStates m env x n) OFloats
    | O2GetNominals x n => outI (fmi2GetNominals m env x n) OFloats
    end.

  (** ** Histories: sequences of calls, each with its own view of the file system.
      Result: the observations of the calls and the final system. *)
  Definition Obs : Type := (Status * Out F D * list (Event F))%type.

  Section Run.
    Context {Op : Type} (ex : Env -> Op -> SF (Status * Out F D)).
    Fixpoint run (l : list (Env * Op)) (s : Sys F D) : res (list Obs * Sys F D) :=
      match l with
      | [] => Done ([], s)
      | (e, o) :: l' =>
          match ex e o s with
          | Done (st, out, s', t) =>
              match run l' s' with
              | Done (obs, s'') => Done ((st, out, t) :: obs, s'')
              | UB => UB
              | NoFuel => NoFuel
              end
          | UB => UB
          | NoFuel => NoFuel
          end
      end.
  End Run.
  Definition run3 (fuel : nat) := run (exec3 fuel).
  Definition run2 (fuel : nat) := run (exec2 fuel).

  (** ** The instance pointer: NULL, live, or freed by fmi3FreeInstance/fmi2FreeInstance
      (freeModelInstance, cosimulation.c:111-120). *)
  Inductive Handle := HNull | HLive (s : Sys F D) | HFreed.

  (** The caller's output arguments if nothing is written. *)
  Definition untouched3 (o : Op3 F D) : Out F D :=
    match o with
    | O3Get t _ _ v _ => OVals t v
    | O3GetBinary _ _ s v _ => OBin s v
    | O3GetClock _ _ v => OClocks v
    | O3GetFMUState _ h | O3FreeFMUState _ h | O3DeserializeFMUState _ _ _ h => OHandle h
    | O3SerializedFMUStateSize _ => OSize None
    | O3SerializeFMUState _ d _ => OBlob d
    | O3GetDirectionalDerivative _ _ _ _ _ d | O3GetAdjointDerivative _ _ _ _ _ d => OFloats d
    | O3GetIntervalDecimal _ _ i q => OInterval i q
    | O3UpdateDiscreteStates => OEventInfo None
    | O3CompletedIntegratorStep _ _ => OFlags None
    | O3GetContinuousStateDerivatives x _ | O3GetEventIndicators x _
    | O3GetContinuousStates x _ | O3GetNominalsOfContinuousStates x _
    | O3GetOutputDerivatives _ _ _ x => OFloats x
    | O3GetNumberOfEventIndicators _ | O3GetNumberOfContinuousStates _ => OCount None
    | O3DoStep _ _ _ _ _ _ => ODoStep (mkDoStepOut None None None None)
    | _ => ONone
    end.
  Definition untouched2 (o : Op2 F D) : Out F D :=
    match o with
    | O2Get t _ _ v => OVals t v
    | O2GetBoolean _ _ v => OBools2 v
    | O2GetFMUstate _ h | O2FreeFMUstate _ h | O2DeSerializeFMUstate _ _ _ h => OHandle h
    | O2SerializedFMUstateSize _ => OSize None
    | O2SerializeFMUstate _ d _ => OBlob d
    | O2GetDirectionalDerivative _ _ _ _ _ d => OFloats d
    | O2GetRealOutputDerivatives _ _ _ x => OFloats x
    | O2GetRealStatus _ _ => OReal None
    | O2GetBooleanStatus _ _ => OBool None
    | O2NewDiscreteStates _ => OEventInfo None
    | O2CompletedIntegratorStep _ _ => OFlags None
    | O2GetDerivatives x _ | O2GetEventIndicators x _
    | O2GetContinuousStates x _ | O2GetNominals x _ => OFloats x
    | _ => ONone
    end.

  (** [if (!instance) return fmi3Error;] fmi3Functions.c:215, fmi2Functions.c:170;
      NOT_IMPLEMENTED (206-211) calls logError with NULL, which returns
      (cosimulation.c:316), and returns fmi3Error. *)
  Definition api3 (fuel : nat) (env : Env) (o : Op3 F D) (p : Handle)
    : res (Status * Out F D * Handle * list (Event F)) :=
    match p with
    | HNull => Done (Error, untouched3 o, HNull, [])
    | HFreed => UB
    | HLive s => match exec3 fuel env o s with
                 | Done (st, out, s', t) => Done (st, out, HLive s', t)
                 | UB => UB
                 | NoFuel => NoFuel
                 end
    end.
  Definition api2 (fuel : nat) (env : Env) (o : Op2 F D) (p : Handle)
    : res (Status * Out F D * Handle * list (Event F)) :=
    match p with
    | HNull => Done (Error, untouched2 o, HNull, [])
    | HFreed => UB
    | HLive s => match exec2 fuel env o s with
                 | Done (st, out, s', t) => Done (st, out, HLive s', t)
                 | UB => UB
                 | NoFuel => NoFuel
                 end
    end.
  (** fmi3Functions.c:383-385, fmi2Functions.c:291-293, cosimulation.c:111-120 *)
  Definition apiFree (p : Handle) : res Handle :=
    match p with HNull => Done HNull | HLive _ => Done HFreed | HFreed => UB end.

  (** Sequences of calls on an instance pointer. *)
  Section RunH.
    Context {Op : Type} (ex : Env -> Op -> Handle -> res (Status * Out F D * Handle * list (Event F))).
    Fixpoint runH (l : list (Env * Op)) (p : Handle) : res (list Obs * Handle) :=
      match l with
      | [] => Done ([], p)
      | (e, o) :: l' =>
          match ex e o p with
          | Done (st, out, p', t) =>
              match runH l' p' with
              | Done (obs, p'') => Done ((st, out, t) :: obs, p'')
              | UB => UB
              | NoFuel => NoFuel
              end
          | UB => UB
          | NoFuel => NoFuel
          end
      end.
  End RunH.
End Api.

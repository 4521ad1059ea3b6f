(** Fmi2.v -- src/fmi2Functions.c: the FMI 2.0 API of an FMU, function by function.
    Line numbers refer to src/fmi2Functions.c.  The macros CALL (178-192) and
    ASSERT_NOT_NULL (25-32) and the loops over arrays are textually the same as in
    src/fmi3Functions.c and shared with Fmi3.v. *)

From Coq Require Import List NArith ZArith Bool Arith.
From Verif Require Import Base Instance ModelIface Core Fmi3.
Import ListNotations.
Set Implicit Arguments.

(** ** State masks, 87-166. *)
Definition m2 (l : list ModelState) : N := fold_right (fun s a => N.lor (bit2 s) a) 0%N l.
Definition MASK2_SetDebugLogging :=                                              (* 92-95 *)
  m2 [Instantiated; InitializationMode; EventMode; ContinuousTimeMode;
      StepComplete; StepInProgress; StepFailed; StepCanceled; Terminated].
Definition MASK2_FreeInstance :=                                                 (* 97-100 *)
  m2 [Instantiated; InitializationMode; EventMode; ContinuousTimeMode;
      StepComplete; StepFailed; StepCanceled; Terminated].
Definition MASK2_SetupExperiment := m2 [Instantiated].                           (* 101 *)
Definition MASK2_EnterInitializationMode := m2 [Instantiated].                   (* 102 *)
Definition MASK2_ExitInitializationMode := m2 [InitializationMode].              (* 103 *)
Definition MASK2_Terminate := m2 [EventMode; ContinuousTimeMode; StepComplete; StepFailed]. (* 104-105 *)
Definition MASK2_Reset := MASK2_FreeInstance.                                    (* 106 *)
Definition MASK2_GetReal :=                                                      (* 107-113 *)
  m2 [InitializationMode; EventMode; ContinuousTimeMode;
      StepComplete; StepFailed; StepCanceled; Terminated].
Definition MASK2_SetReal :=                                                      (* 114-116 *)
  m2 [Instantiated; InitializationMode; EventMode; ContinuousTimeMode; StepComplete].
Definition MASK2_SetInteger :=                                                   (* 117-121 *)
  m2 [Instantiated; InitializationMode; EventMode; StepComplete].
Definition MASK2_FMUstate := MASK2_FreeInstance.                                 (* 122-127 *)
Definition MASK2_GetDirectionalDerivative :=                                     (* 128-131 *)
  m2 [InitializationMode; EventMode; ContinuousTimeMode;
      StepComplete; StepFailed; StepCanceled; Terminated].
Definition MASK2_EnterEventMode := m2 [EventMode; ContinuousTimeMode].           (* 136 *)
Definition MASK2_NewDiscreteStates := m2 [EventMode].                            (* 137 *)
Definition MASK2_EnterContinuousTimeMode := m2 [EventMode].                      (* 138 *)
Definition MASK2_CompletedIntegratorStep := m2 [ContinuousTimeMode].             (* 139 *)
Definition MASK2_SetTime := m2 [EventMode; ContinuousTimeMode].                  (* 140 *)
Definition MASK2_SetContinuousStates := m2 [ContinuousTimeMode].                 (* 141 *)
Definition MASK2_GetEventIndicators :=                                           (* 142-144 *)
  m2 [InitializationMode; EventMode; ContinuousTimeMode; Terminated].
Definition MASK2_GetContinuousStates := MASK2_GetEventIndicators.                (* 145 *)
Definition MASK2_GetDerivatives := m2 [EventMode; ContinuousTimeMode; Terminated]. (* 146-147 *)
Definition MASK2_GetNominals := m2 [Instantiated; EventMode; ContinuousTimeMode; Terminated]. (* 148-150 *)
Definition MASK2_SetRealInputDerivatives := m2 [Instantiated; InitializationMode; StepComplete]. (* 155-156 *)
Definition MASK2_GetRealOutputDerivatives := m2 [StepComplete; StepFailed; StepCanceled; Terminated]. (* 157-158 *)
Definition MASK2_DoStep := m2 [StepComplete].                                    (* 159 *)
Definition MASK2_CancelStep := m2 [StepInProgress].                              (* 160 *)
Definition MASK2_GetStatus := m2 [StepComplete; StepInProgress; StepFailed; Terminated]. (* 161-166 *)

(** fmi2StatusKind, fmi2FunctionTypes.h *)
Inductive StatusKind := DoStepStatus | PendingStatus | LastSuccessfulTime | KTerminated.

Section Fmi2.
  Context {F : Type} {NF : Num F} (m : Model F) (env : Env).
  Notation D := (md m).
  Open Scope sw_scope.

  Notation call := (@call F m env _).
  Notation logError := (@logError F m env).
  Notation CALL := (@CALL F m).
  Notation CALLk := (@CALLk F m _).
  Notation ASSERT_NOT_NULL := (@ASSERT_NOT_NULL F m env _ _).
  Notation refresh := (@refresh F m env _).

  (** 194-207 *)
  Definition allowedState2 (mask : N) : AF F D bool :=
    let* c := getC m in
    if N.eqb (N.land (bit2 (mode c)) mask) 0 then logError ;;; ret false
    else ret true.

  (** BEGIN_FUNCTION, 168-172, for a non-NULL component *)
  Definition BEGIN2 {X} (mask : N) (x : X) (k : AF F D (Status * X)) : AF F D (Status * X) :=
    let* b := allowedState2 mask in
    if b then k else CALLk OK Error x (fun _ => k).

  Definition lst {T} (b : Buf T) : list T := match b with Some l => l | None => [] end.

  (** GET_VARIABLES(T), 34-47, used by fmi2GetReal (320), fmi2GetInteger (326),
      fmi2GetString (338) *)
  Definition fmi2GetV (t : VType) (vrs : Buf N) (nvr : nat) (values : Buf (val F t))
    : AF F D (Status * Buf (val F t)) :=
    BEGIN2 MASK2_GetReal values (
      if Nat.eqb nvr 0 then ret (OK, values) else
      ASSERT_NOT_NULL vrs values (ASSERT_NOT_NULL values values (
      refresh OK values (fun st =>
      let* r := get_loop m env t (lst vrs) nvr values nvr 0 st in
      let '(st, values', _) := r in ret (st, values'))))).

  (** SET_VARIABLES(T), 49-59, used by fmi2SetReal (344), fmi2SetInteger (350),
      fmi2SetString (362); masks 114-121 *)
  Definition MASK2_Set (t : VType) : N := match t with TFloat64 => MASK2_SetReal | _ => MASK2_SetInteger end.
  Definition fmi2SetV (t : VType) (vrs : Buf N) (nvr : nat) (values : Buf (val F t))
    : AF F D (Status * unit) :=
    BEGIN2 (MASK2_Set t) tt (
      if Nat.eqb nvr 0 then ret (OK, tt) else
      ASSERT_NOT_NULL vrs tt (ASSERT_NOT_NULL values tt (
      let* r := set_loop m env t (lst vrs) nvr values nvr 0 OK in
      let '(st, _) := r in
      if stops st then ret (st, tt) else
      modM m (set_dirty true) ;;; ret (st, tt)))).

  (** GET_BOOLEAN_VARIABLES, 61-69.  fmi2Boolean is int.  The local [v] is an array of
      one element (uninitialised in the code, [false] here: no getBoolean of the FMUs
      returns OK without writing it). *)
  Fixpoint getBoolean_loop (vrs : Buf N) (n i nvr : nat) (values : Buf Z) (st : Status)
    : AF F D (Status * Buf Z) :=
    match n with
    | O => ret (st, values)
    | S n' =>
        let* vr := rd vrs i in
        let* r := call (m_get m TBoolean vr (Some [false]) nvr 0) in
        let '(s, v, _) := r in
        CALLk st s values (fun st' =>
        let* b := rd v 0 in
        let* values' := wr values i (if b : bool then 1 else 0)%Z in
        getBoolean_loop vrs n' (S i) nvr values' st')
    end.

  (** 332-336 *)
  Definition fmi2GetBoolean (vrs : Buf N) (nvr : nat) (values : Buf Z) : AF F D (Status * Buf Z) :=
    BEGIN2 MASK2_GetReal values (getBoolean_loop vrs nvr 0 nvr values OK).

  (** SET_BOOLEAN_VARIABLES, 71-78 *)
  Fixpoint setBoolean_loop (vrs : Buf N) (n i nvr : nat) (values : Buf Z) (st : Status)
    : AF F D (Status * unit) :=
    match n with
    | O => ret (st, tt)
    | S n' =>
        let* v := rd values i in
        let* vr := rd vrs i in
        let* r := call (m_set m TBoolean vr (Some [negb (Z.eqb v 0)]) nvr 0) in
        CALLk st (fst r) tt (fun st' => setBoolean_loop vrs n' (S i) nvr values st')
    end.

  (** 356-360 *)
  Definition fmi2SetBoolean (vrs : Buf N) (nvr : nat) (values : Buf Z) : AF F D (Status * unit) :=
    BEGIN2 MASK2_SetInteger tt (setBoolean_loop vrs nvr 0 nvr values OK).

  (** 234-248; toleranceDefined and tolerance are unused *)
  Definition fmi2SetupExperiment (start : F) (stopTimeDefined : bool) (stop : F) : AF F D (Status * unit) :=
    BEGIN2 MASK2_SetupExperiment tt (
      modC m (set_startTime start) ;;;
      modC m (set_stopTime (if stopTimeDefined then stop else ninf)) ;;;
      modC m (set_time start) ;;;
      modC m (set_nextCommunicationPoint start) ;;;
      ret (OK, tt)).

  (** 250-256 *)
  Definition fmi2EnterInitializationMode : AF F D (Status * unit) :=
    BEGIN2 MASK2_EnterInitializationMode tt (setMode m InitializationMode ;;; ret (OK, tt)).

  (** 268 *)
  Definition modeAfterInit2 (c : Ctl F) : ModelState :=
    match itype c with ModelExchange => EventMode | _ => StepComplete end.

  (** 258-273 *)
  Definition fmi2ExitInitializationMode : AF F D (Status * unit) :=
    BEGIN2 MASK2_ExitInitializationMode tt (
      refresh OK tt (fun st =>
      modC m (fun c => set_mode (modeAfterInit2 c) c) ;;;
      let* s := configurate m env in
      CALLk st s tt (fun st => ret (st, tt)))).

  (** 275-281 *)
  Definition fmi2Terminate : AF F D (Status * unit) :=
    BEGIN2 MASK2_Terminate tt (setMode m Terminated ;;; ret (OK, tt)).

  (** 283-289 *)
  Definition fmi2Reset : AF F D (Status * unit) :=
    BEGIN2 MASK2_Reset tt (
      let* s := reset m env in CALLk OK s tt (fun st => ret (st, tt))).

  (** 312-318 *)
  Definition fmi2SetDebugLogging (loggingOn : bool) (nCategories : nat) (categories : Buf (option bytes))
    : AF F D (Status * unit) :=
    BEGIN2 MASK2_SetDebugLogging tt (
      let* s := setDebugLogging m env loggingOn nCategories categories in
      CALLk OK s tt (fun st => ret (st, tt))).

  (** 427-446 *)
  Definition fmi2GetDirectionalDerivative (unknowns : Buf N) (nUnknowns : nat) (knowns : Buf N) (nKnowns : nat)
             (seed sens : Buf F) : AF F D (Status * Buf F) :=
    BEGIN2 MASK2_GetDirectionalDerivative sens (
      deriv_rows m env (fun u k => m_getPartialDerivative m u k) unknowns nUnknowns 0 knowns nKnowns seed sens OK).

  (** 452-466 *)
  Definition fmi2SetRealInputDerivatives : AF F D (Status * unit) :=
    BEGIN2 MASK2_SetRealInputDerivatives tt (
      logError ;;; CALLk OK Error tt (fun st => ret (st, tt))).

  (** 468-488 *)
  Definition fmi2GetRealOutputDerivatives (vrs : Buf N) (nvr : nat) (orders : Buf Z) (values : Buf F)
    : AF F D (Status * Buf F) :=
    BEGIN2 MASK2_GetRealOutputDerivatives values (
      if m_outputDerivative m then outputDerivative_loop m env vrs nvr 0 orders values OK
      else logError ;;; CALLk OK Error values (fun st => ret (st, values))).

  (** 490-498 *)
  Definition fmi2CancelStep : AF F D (Status * unit) :=
    BEGIN2 MASK2_CancelStep tt (
      logError ;;; CALLk OK Error tt (fun st => ret (st, tt))).

  (** The loop 526-548.  Result: status and whether the loop was left by [break]
      (next communication point reached). *)
  Fixpoint doStep2_loop (fuel : nat) (ncp : F) (st : Status) : AF F D (Status * bool) :=
    match fuel with
    | O => nofuelM
    | S fuel' =>
        let* c := getC m in
        if pointReached m ncp c then ret (st, true) else                    (* 528-532 *)
        let* r := doFixedStep m env in                                       (* 536 *)
        let '(s, se, te) := r in
        let* st := CALL st s in
        if stops st then ret (st, false) else
        let rest st :=                                                       (* 544-547 *)
          let* u := getM m in
          if terminateSimulation u then ret (Discard, false)
          else doStep2_loop fuel' ncp st in
        if m_eventUpdate m then
          match (match se with Some true => Some true
                             | Some false => te | None => None end) with     (* 539 *)
          | None => ubM
          | Some false => rest st
          | Some true =>
              let* s := call (m_eventUpdateF m) in
              let* st := CALL st s in
              if stops st then ret (st, false) else rest st
          end
        else rest st
    end.

  (** 500-553 *)
  Definition fmi2DoStep (fuel : nat) (ccp h : F) : AF F D (Status * unit) :=
    BEGIN2 MASK2_DoStep tt (
      let* c := getC m in
      if negb (isClose ccp (nextCommunicationPoint c)) then
        logError ;;; setMode m Terminated ;;; CALLk OK Error tt (fun st => ret (st, tt))
      else if nle h nzero then
        logError ;;; CALLk OK Error tt (fun st => ret (st, tt))
      else
      let ncp := nadd ccp h in
      if nlt (stopTime c) ncp && negb (isClose ncp (stopTime c)) then
        logError ;;; CALLk OK Error tt (fun st => ret (st, tt))
      else
      let* r := doStep2_loop fuel ncp OK in
      let '(st, finished) := r in
      if finished then
        modC m (set_nextCommunicationPoint ncp) ;;; ret (st, tt)
      else ret (st, tt)).

  (** 556-578 *)
  Definition getStatus (k : StatusKind) : AF F D Status := logError ;;; ret Discard.

  (** 580-585, 600-608, 623-631: GetStatus, GetIntegerStatus, GetStringStatus *)
  Definition fmi2GetStatus (k : StatusKind) : AF F D (Status * unit) :=
    BEGIN2 MASK2_GetStatus tt (
      let* s := getStatus k in CALLk OK s tt (fun st => ret (st, tt))).

  (** 587-598; [p]: value is non-NULL *)
  Definition fmi2GetRealStatus (k : StatusKind) (p : bool) : AF F D (Status * option F) :=
    BEGIN2 MASK2_GetStatus None (
      match k with
      | LastSuccessfulTime =>
          let* c := getC m in if p then ret (OK, Some (time c)) else ubM
      | _ => let* s := getStatus k in CALLk OK s None (fun st => ret (st, None))
      end).

  (** 610-621 *)
  Definition fmi2GetBooleanStatus (k : StatusKind) (p : bool) : AF F D (Status * option bool) :=
    BEGIN2 MASK2_GetStatus None (
      match k with
      | KTerminated =>
          let* u := getM m in if p then ret (OK, Some (terminateSimulation u)) else ubM
      | _ => let* s := getStatus k in CALLk OK s None (fun st => ret (st, None))
      end).

  (** 637-643 *)
  Definition fmi2EnterEventMode : AF F D (Status * unit) :=
    BEGIN2 MASK2_EnterEventMode tt (setMode m EventMode ;;; ret (OK, tt)).

  (** 645-660; [p]: eventInfo is non-NULL *)
  Definition fmi2NewDiscreteStates (p : bool) : AF F D (Status * option (EventInfo F)) :=
    BEGIN2 MASK2_NewDiscreteStates None (
      let k st :=
        let* u := getM m in
        if p then
          ret (st, Some (mkEventInfo (newDiscreteStatesNeeded u) (terminateSimulation u) (nominalsChanged u)
                                     (valuesChanged u) (nextEventTimeDefined u) (nextEventTime u)))
        else ubM in
      if m_eventUpdate m then
        let* s := call (m_eventUpdateF m) in CALLk OK s None k
      else k OK).

  (** 662-668 *)
  Definition fmi2EnterContinuousTimeMode : AF F D (Status * unit) :=
    BEGIN2 MASK2_EnterContinuousTimeMode tt (setMode m ContinuousTimeMode ;;; ret (OK, tt)).

  (** 670-686 *)
  Definition fmi2CompletedIntegratorStep (p1 p2 : option unit) : AF F D (Status * option (bool * bool)) :=
    BEGIN2 MASK2_CompletedIntegratorStep None (
      let* b := nullPointer m env p1 in
      if b then CALLk OK Error None (fun st => ret (st, None)) else
      let* b := nullPointer m env p2 in
      if b then CALLk OK Error None (fun st => ret (st, None)) else
      ret (OK, Some (false, false))).

  (** 689-693 *)
  Definition fmi2SetTime (t : F) : AF F D (Status * unit) :=
    BEGIN2 MASK2_SetTime tt (modC m (set_time t) ;;; ret (OK, tt)).

  (** 695-699 *)
  Definition fmi2SetContinuousStates (x : Buf F) (n : nat) : AF F D (Status * unit) :=
    BEGIN2 MASK2_SetContinuousStates tt (
      let* s := call (m_setContinuousStates m x n) in CALLk OK s tt (fun st => ret (st, tt))).

  (** 702-724 *)
  Definition fmi2GetArray (mask : N) (f : Buf F -> nat -> MF F D (Status * Buf F)) (x : Buf F) (n : nat)
    : AF F D (Status * Buf F) :=
    BEGIN2 mask x (
      let* r := call (f x n) in CALLk OK (fst r) (snd r) (fun st => ret (st, snd r))).
  Definition fmi2GetDerivatives := fmi2GetArray MASK2_GetDerivatives (m_getDerivatives m).              (* 702 *)
  Definition fmi2GetEventIndicators := fmi2GetArray MASK2_GetEventIndicators (m_getEventIndicators m).  (* 708 *)
  Definition fmi2GetContinuousStates := fmi2GetArray MASK2_GetContinuousStates (m_getContinuousStates m). (* 714 *)
  Definition fmi2GetNominals := fmi2GetArray MASK2_GetNominals (m_getNominals m).                       (* 720 *)

  (** 213-232.  [logger]: functions and functions->logger are non-NULL.  fmuType is cast
      to InterfaceType. *)
  Definition fmi2Instantiate (name : option bytes) (typ : InterfaceType) (guid resource : option bytes)
             (environment : N) (logger loggingOn : bool) : res (option (Inst F D) * list (Event F)) :=
    if logger then createModelInstance m env true false environment name guid resource loggingOn typ
    else Done (None, []).
End Fmi2.

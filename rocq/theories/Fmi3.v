(** Fmi3.v -- src/fmi3Functions.c: the FMI 3.0 API of an FMU, function by function.
    Generic in the FMU [m].  Line numbers refer to src/fmi3Functions.c.

    Every function returns the status and the contents of the caller's output
    arguments after the call (also if it fails).  Callbacks are assumed not to call
    back into the FMU and not to write through the pointers they receive; input and
    output arrays of one call are assumed not to overlap. *)

From Coq Require Import List NArith ZArith Bool Arith.
From Verif Require Import Base Instance ModelIface Core.
Import ListNotations.
Set Implicit Arguments.

(** Does the CALL macro (33-47) leave the function with this [status]? *)
Definition stops (s : Status) : bool :=
  match s with Discard | Error | Fatal => true | _ => false end.

(** ** Mode masks, 94-200. *)
Definition m3 (l : list ModelState) : N := fold_right (fun s a => N.lor (bit3 s) a) 0%N l.
Definition MASK_AnyState : N := (2 ^ 32 - 1)%N.                                  (* 94 *)
Definition MASK_EnterInitializationMode := m3 [Instantiated].                    (* 107 *)
Definition MASK_ExitInitializationMode := m3 [InitializationMode].               (* 108 *)
Definition MASK_EnterEventMode := m3 [ContinuousTimeMode; StepMode].             (* 109 *)
Definition MASK_Terminate :=                                                     (* 110 *)
  m3 [ContinuousTimeMode; StepMode; StepDiscarded; EventMode; ClockActivationMode; ReconfigurationMode].
Definition MASK_GetFloat32 :=                                                    (* 116 *)
  m3 [Instantiated; InitializationMode; ConfigurationMode; ReconfigurationMode; EventMode;
      ContinuousTimeMode; StepMode; ClockActivationMode; IntermediateUpdateMode; Terminated].
(** 116-128: the same mask for all value types *)
Definition MASK_Get (t : VType) := MASK_GetFloat32.
Definition MASK_SetFloat32 :=                                                    (* 131 *)
  m3 [Instantiated; InitializationMode; ConfigurationMode; ReconfigurationMode; EventMode;
      ContinuousTimeMode; StepMode; ClockActivationMode; IntermediateUpdateMode; Terminated].
Definition MASK_SetInt8 :=                                                       (* 133 *)
  m3 [Instantiated; ConfigurationMode; ReconfigurationMode; InitializationMode; EventMode;
      StepMode; ClockActivationMode; Terminated].
(** 131-143 *)
Definition MASK_Set (t : VType) :=
  match t with TFloat32 | TFloat64 => MASK_SetFloat32 | _ => MASK_SetInt8 end.
Definition MASK_GetDirectionalDerivative :=                                      (* 159-160 *)
  m3 [InitializationMode; StepMode; EventMode; ContinuousTimeMode; Terminated].
Definition MASK_EnterConfigurationMode :=                                        (* 163 *)
  m3 [Instantiated; StepMode; EventMode; ClockActivationMode].
Definition MASK_ExitConfigurationMode := m3 [ConfigurationMode; ReconfigurationMode]. (* 164 *)
Definition MASK_EnterContinuousTimeMode := m3 [EventMode].                       (* 176 *)
Definition MASK_CompletedIntegratorStep := m3 [ContinuousTimeMode].              (* 177 *)
Definition MASK_SetTime := m3 [EventMode; ContinuousTimeMode].                   (* 180 *)
Definition MASK_SetContinuousStates := m3 [ContinuousTimeMode].                  (* 181 *)
Definition MASK_GetContinuousStateDerivatives :=                                 (* 184-187 *)
  m3 [InitializationMode; EventMode; ContinuousTimeMode; Terminated].
Definition MASK_EnterStepMode := m3 [InitializationMode; EventMode].             (* 194 *)
Definition MASK_GetOutputDerivatives := m3 [StepMode; StepDiscarded; Terminated]. (* 196 *)
Definition MASK_DoStep := m3 [StepMode].                                         (* 197 *)
Definition MASK_ActivateModelPartition := m3 [ClockActivationMode].              (* 198 *)

(** Out arguments of fmi3DoStep; [None]: not written. *)
Record DoStepOut (F : Type) := mkDoStepOut {
  o_eventHandlingNeeded : option bool;
  o_terminateSimulation : option bool;
  o_earlyReturn : option bool;
  o_lastSuccessfulTime : option F
}.
Arguments mkDoStepOut {F}.

(** Out arguments of fmi3UpdateDiscreteStates. *)
Record EventInfo (F : Type) := mkEventInfo {
  ei_discreteStatesNeedUpdate : bool;
  ei_terminateSimulation : bool;
  ei_nominalsChanged : bool;
  ei_valuesChanged : bool;
  ei_nextEventTimeDefined : bool;
  ei_nextEventTime : F
}.
Arguments mkEventInfo {F}.

Section Fmi3.
  Context {F : Type} {NF : Num F} (m : Model F) (env : Env).
  Notation D := (md m).
  Open Scope sw_scope.

  Notation call := (@call F m env _).
  Notation logError := (@logError F m env).

  (** CALL, 33-47: [st] is the variable [status], [s] the status of the call. *)
  Definition CALL (st s : Status) : AF F D Status :=
    let st' := smax st s in
    match st' with
    | Error => setMode m Terminated ;;; ret st'
    | Fatal => setMode m StartAndEnd ;;; ret st'
    | _ => ret st'
    end.

  (** [CALL(f)] followed by the rest [k] of the function; [x] are the outputs. *)
  Definition CALLk {X} (st s : Status) (x : X) (k : Status -> AF F D (Status * X))
    : AF F D (Status * X) :=
    let* st' := CALL st s in
    if stops st' then ret (st', x) else k st'.

  (** 223-235 *)
  Definition allowedState (mask : N) : AF F D bool :=
    let* c := getC m in
    if N.eqb (N.land (bit3 (mode c)) mask) 0 then logError ;;; ret false
    else ret true.

  (** BEGIN_FUNCTION, 213-217, for a non-NULL instance *)
  Definition BEGIN {X} (mask : N) (x : X) (k : AF F D (Status * X)) : AF F D (Status * X) :=
    let* b := allowedState mask in
    if b then k else CALLk OK Error x (fun _ => k).

  (** ASSERT_NOT_NULL, 24-31 *)
  Definition ASSERT_NOT_NULL {T X} (p : option T) (x : X) (k : AF F D (Status * X))
    : AF F D (Status * X) :=
    match p with
    | None => logError ;;; setMode m Terminated ;;; ret (Error, x)
    | Some _ => k
    end.

  (** NOT_IMPLEMENTED, 206-211 *)
  Definition NOT_IMPLEMENTED : AF F D Status := logError ;;; ret Error.

  (** [if (S->isDirtyValues) { CALL(calculateValues(S)); S->isDirtyValues = false; }]
      (54-57, 412-415, 566-569) *)
  Definition refresh {X} (st : Status) (x : X) (k : Status -> AF F D (Status * X))
    : AF F D (Status * X) :=
    let* u := getM m in
    if dirty u then
      let* s := call (m_calculateValues m) in
      CALLk st s x (fun st' => modM m (set_dirty false) ;;; k st')
    else k st.

  (** 59-61: the loop over the value references; stops as soon as [status] says so *)
  Fixpoint get_loop (t : VType) (vrs : list N) (n : nat) (values : Buf (val F t)) (nValues index : nat)
           (st : Status) {struct n} : AF F D (Status * Buf (val F t) * nat) :=
    match n with
    | O => ret (st, values, index)
    | S n' =>
        match vrs with
        | [] => ubM
        | vr :: vrs' =>
            let* r := call (m_get m t vr values nValues index) in
            let '(s, values', index') := r in
            let* st' := CALL st s in
            if stops st' then ret (st', values', index')
            else get_loop t vrs' n' values' nValues index' st'
        end
    end.

  (** GET_VARIABLES(T), 49-66 (functions 452-546) *)
  Definition fmi3Get (t : VType) (vrs : Buf N) (nvr : nat) (values : Buf (val F t)) (nValues : nat)
    : AF F D (Status * Buf (val F t)) :=
    BEGIN (MASK_Get t) values (
      if Nat.eqb nvr 0 then ret (OK, values) else
      ASSERT_NOT_NULL vrs values (
      let body :=
        refresh OK values (fun st =>
        let* r := get_loop t (match vrs with Some l => l | None => [] end) nvr values nValues 0 st in
        let '(st, values', index) := r in
        if stops st then ret (st, values') else
        if negb (Nat.eqb index nValues) then
          logError ;;; CALLk st Error values' (fun st => ret (st, values'))
        else ret (st, values')) in
      if Nat.ltb 0 nValues then ASSERT_NOT_NULL values values body else body)).

  (** 73-75 *)
  Fixpoint set_loop (t : VType) (vrs : list N) (n : nat) (values : Buf (val F t)) (nValues index : nat)
           (st : Status) {struct n} : AF F D (Status * nat) :=
    match n with
    | O => ret (st, index)
    | S n' =>
        match vrs with
        | [] => ubM
        | vr :: vrs' =>
            let* r := call (m_set m t vr values nValues index) in
            let '(s, index') := r in
            let* st' := CALL st s in
            if stops st' then ret (st', index')
            else set_loop t vrs' n' values nValues index' st'
        end
    end.

  (** SET_VARIABLES(T), 68-81 (functions 593-687) *)
  Definition fmi3Set (t : VType) (vrs : Buf N) (nvr : nat) (values : Buf (val F t)) (nValues : nat)
    : AF F D (Status * unit) :=
    BEGIN (MASK_Set t) tt (
      if Nat.eqb nvr 0 then ret (OK, tt) else
      ASSERT_NOT_NULL vrs tt (
      let* r := set_loop t (match vrs with Some l => l | None => [] end) nvr values nValues 0 OK in
      let '(st, index) := r in
      if stops st then ret (st, tt) else
      modM m (set_dirty true) ;;;
      if negb (Nat.eqb index nValues) then
        logError ;;; CALLk st Error tt (fun st => ret (st, tt))
      else ret (st, tt))).

  (** 245-252 *)
  Definition fmi3SetDebugLogging (loggingOn : bool) (nCategories : nat) (categories : Buf (option bytes))
    : AF F D (Status * unit) :=
    BEGIN MASK_AnyState tt (
      let* s := setDebugLogging m env loggingOn nCategories categories in
      CALLk OK s tt (fun st => ret (st, tt))).

  (** 387-405; toleranceDefined and tolerance are unused *)
  Definition fmi3EnterInitializationMode (start : F) (stopTimeDefined : bool) (stop : F)
    : AF F D (Status * unit) :=
    BEGIN MASK_EnterInitializationMode tt (
      modC m (set_startTime start) ;;;
      modC m (set_stopTime (if stopTimeDefined then stop else ninf)) ;;;
      modC m (set_time start) ;;;
      modC m (set_nextCommunicationPoint start) ;;;
      setMode m InitializationMode ;;;
      ret (OK, tt)).

  (** 417-427 *)
  Definition modeAfterInit (c : Ctl F) : ModelState :=
    match itype c with
    | ModelExchange => EventMode
    | CoSimulation => if eventModeUsed c then EventMode else StepMode
    | ScheduledExecution => ClockActivationMode
    end.

  (** 407-432 *)
  Definition fmi3ExitInitializationMode : AF F D (Status * unit) :=
    BEGIN MASK_ExitInitializationMode tt (
      refresh OK tt (fun st =>
      modC m (fun c => set_mode (modeAfterInit c) c) ;;;
      let* s := configurate m env in
      CALLk st s tt (fun st => ret (st, tt)))).

  (** 434-438 *)
  Definition fmi3EnterEventMode : AF F D (Status * unit) :=
    BEGIN MASK_EnterEventMode tt (setMode m EventMode ;;; ret (OK, tt)).

  (** 440-444 *)
  Definition fmi3Terminate : AF F D (Status * unit) :=
    BEGIN MASK_Terminate tt (setMode m Terminated ;;; ret (OK, tt)).

  (** 446-450 *)
  Definition fmi3Reset : AF F D (Status * unit) :=
    BEGIN MASK_AnyState tt (
      let* s := reset m env in CALLk OK s tt (fun st => ret (st, tt))).

  (** 573-575 *)
  Fixpoint getBinary_loop (vrs : list N) (n : nat) (sizes : Buf nat) (values : Buf bytes)
           (nValues index : nat) (st : Status) {struct n} : AF F D (Status * (Buf nat * Buf bytes)) :=
    match n with
    | O => ret (st, (sizes, values))
    | S n' =>
        match vrs with
        | [] => ubM
        | vr :: vrs' =>
            let* r := call (m_getBinary m vr sizes values nValues index) in
            let '(s, sizes', values', index') := r in
            CALLk st s (sizes', values')
              (fun st' => getBinary_loop vrs' n' sizes' values' nValues index' st')
        end
    end.

  (** 548-578.  [values]: the contents the returned pointers point to. *)
  Definition fmi3GetBinary (vrs : Buf N) (nvr : nat) (sizes : Buf nat) (values : Buf bytes) (nValues : nat)
    : AF F D (Status * (Buf nat * Buf bytes)) :=
    BEGIN MASK_GetFloat32 (sizes, values) (
      if Nat.eqb nvr 0 then ret (OK, (sizes, values)) else
      ASSERT_NOT_NULL vrs (sizes, values) (
      let body :=
        refresh OK (sizes, values) (fun st =>
        getBinary_loop (match vrs with Some l => l | None => [] end) nvr sizes values nValues 0 st) in
      if Nat.ltb 0 nValues then ASSERT_NOT_NULL values (sizes, values) body else body)).

  (** 706-708 *)
  Fixpoint setBinary_loop (vrs : list N) (n : nat) (sizes : Buf nat) (values : Buf (option bytes))
           (nValues index : nat) (st : Status) {struct n} : AF F D (Status * nat) :=
    match n with
    | O => ret (st, index)
    | S n' =>
        match vrs with
        | [] => ubM
        | vr :: vrs' =>
            let* r := call (m_setBinary m vr sizes values nValues index) in
            let '(s, index') := r in
            let* st' := CALL st s in
            if stops st' then ret (st', index')
            else setBinary_loop vrs' n' sizes values nValues index' st'
        end
    end.

  (** 689-720 *)
  Definition fmi3SetBinary (vrs : Buf N) (nvr : nat) (sizes : Buf nat) (values : Buf (option bytes)) (nValues : nat)
    : AF F D (Status * unit) :=
    BEGIN MASK_SetInt8 tt (
      if Nat.eqb nvr 0 then ret (OK, tt) else
      ASSERT_NOT_NULL vrs tt (
      let* r := setBinary_loop (match vrs with Some l => l | None => [] end) nvr sizes values nValues 0 OK in
      let '(st, index) := r in
      if stops st then ret (st, tt) else
      modM m (set_dirty true) ;;;
      if negb (Nat.eqb index nValues) then
        logError ;;; CALLk st Error tt (fun st => ret (st, tt))
      else ret (st, tt))).

  (** 586-588 *)
  Fixpoint getClock_loop (vrs : Buf N) (n i : nat) (values : Buf bool) (st : Status)
    : AF F D (Status * Buf bool) :=
    match n with
    | O => ret (st, values)
    | S n' =>
        let* vr := rd vrs i in
        let* r := call (m_getClock m vr) in
        let* values' := match snd r with Some v => wr values i v | None => ret values end in
        CALLk st (fst r) values' (fun st' => getClock_loop vrs n' (S i) values' st')
    end.

  (** 580-591 *)
  Definition fmi3GetClock (vrs : Buf N) (nvr : nat) (values : Buf bool) : AF F D (Status * Buf bool) :=
    BEGIN MASK_AnyState values (getClock_loop vrs nvr 0 values OK).

  (** 728-732 *)
  Fixpoint setClock_loop (vrs : Buf N) (n i : nat) (values : Buf bool) (st : Status)
    : AF F D (Status * unit) :=
    match n with
    | O => ret (st, tt)
    | S n' =>
        let* v := rd values i in
        if v then
          let* vr := rd vrs i in
          let* s := call (m_activateClock m vr) in
          CALLk st s tt (fun st' => setClock_loop vrs n' (S i) values st')
        else setClock_loop vrs n' (S i) values st
    end.

  (** 722-735 *)
  Definition fmi3SetClock (vrs : Buf N) (nvr : nat) (values : Buf bool) : AF F D (Status * unit) :=
    BEGIN MASK_AnyState tt (setClock_loop vrs nvr 0 values OK).

  (** 859-863 and 888-892: one row; [pd] the partial derivative w.r.t. the j-th other
      variable.  The accumulator is the array element sensitivity[i]. *)
  Fixpoint deriv_row (pd : N -> MF F D (Status * F)) (others : Buf N) (n j : nat) (seed : Buf F)
           (acc : F) (st : Status) : AF F D (Status * F) :=
    match n with
    | O => ret (st, acc)
    | S n' =>
        let* o := rd others j in
        let* r := call (pd o) in
        let* st' := CALL st (fst r) in
        if stops st' then ret (st', acc) else
        let* w := rd seed j in
        deriv_row pd others n' (S j) seed (nadd acc (nmul (snd r) w)) st'
    end.

  (** 857-864 and 886-893: the rows *)
  Fixpoint deriv_rows (pd : N -> N -> MF F D (Status * F)) (rows : Buf N) (n i : nat)
           (others : Buf N) (nOthers : nat) (seed sens : Buf F) (st : Status)
    : AF F D (Status * Buf F) :=
    match n with
    | O => ret (st, sens)
    | S n' =>
        let* sens := wr sens i nzero in
        if Nat.eqb nOthers 0 then deriv_rows pd rows n' (S i) others nOthers seed sens st
        else
        let* r := rd rows i in
        let* (st', acc) := deriv_row (pd r) others nOthers 0 seed nzero st in
        let* sens' := wr sens i acc in
        if stops st' then ret (st', sens')
        else deriv_rows pd rows n' (S i) others nOthers seed sens' st'
    end.

  (** 838-867; nSeed and nSensitivity are unused *)
  Definition fmi3GetDirectionalDerivative (unknowns : Buf N) (nUnknowns : nat) (knowns : Buf N) (nKnowns : nat)
             (seed sens : Buf F) : AF F D (Status * Buf F) :=
    BEGIN MASK_GetDirectionalDerivative sens (
      deriv_rows (fun u k => m_getPartialDerivative m u k) unknowns nUnknowns 0 knowns nKnowns seed sens OK).

  (** 869-896 *)
  Definition fmi3GetAdjointDerivative (unknowns : Buf N) (nUnknowns : nat) (knowns : Buf N) (nKnowns : nat)
             (seed sens : Buf F) : AF F D (Status * Buf F) :=
    BEGIN MASK_GetDirectionalDerivative sens (
      deriv_rows (fun k u => m_getPartialDerivative m u k) knowns nKnowns 0 unknowns nUnknowns seed sens OK).

  (** 898-902 *)
  Definition fmi3EnterConfigurationMode : AF F D (Status * unit) :=
    BEGIN MASK_EnterConfigurationMode tt (
      modC m (fun c => set_mode (if ModelState_eqb (mode c) Instantiated
                                 then ConfigurationMode else ReconfigurationMode) c) ;;;
      ret (OK, tt)).

  (** 907-921 *)
  Definition modeAfterConfig (c : Ctl F) : ModelState :=
    if ModelState_eqb (mode c) ConfigurationMode then Instantiated
    else match itype c with
         | ModelExchange => EventMode
         | CoSimulation => StepMode
         | ScheduledExecution => ClockActivationMode
         end.

  (** 904-928 *)
  Definition fmi3ExitConfigurationMode : AF F D (Status * unit) :=
    BEGIN MASK_ExitConfigurationMode tt (
      modC m (fun c => set_mode (modeAfterConfig c) c) ;;;
      if Nat.ltb 0 (m_maxX m) || Nat.ltb 0 (m_maxZ m) then
        let* s := configurate m env in CALLk OK s tt (fun st => ret (st, tt))
      else ret (OK, tt)).

  (** 940-942 *)
  Fixpoint interval_loop (vrs : Buf N) (n i : nat) (intervals : Buf F) (qualifiers : Buf Z) (st : Status)
    : AF F D (Status * (Buf F * Buf Z)) :=
    match n with
    | O => ret (st, (intervals, qualifiers))
    | S n' =>
        let* vr := rd vrs i in
        let* r := call (m_getInterval m vr) in
        let '(s, iv, q) := r in
        let* intervals' := match iv with Some v => wr intervals i v | None => ret intervals end in
        let* qualifiers' := match q with Some v => wr qualifiers i v | None => ret qualifiers end in
        CALLk st s (intervals', qualifiers')
          (fun st' => interval_loop vrs n' (S i) intervals' qualifiers' st')
    end.

  (** 930-945 *)
  Definition fmi3GetIntervalDecimal (vrs : Buf N) (nvr : nat) (intervals : Buf F) (qualifiers : Buf Z)
    : AF F D (Status * (Buf F * Buf Z)) :=
    BEGIN MASK_AnyState (intervals, qualifiers) (interval_loop vrs nvr 0 intervals qualifiers OK).

  (** 737-762, 947-1043: GetNumberOfVariableDependencies, GetVariableDependencies,
      GetIntervalFraction, GetShift*, SetInterval*, SetShift*, EvaluateDiscreteStates *)
  Definition fmi3NotImplemented : AF F D (Status * unit) :=
    let* s := NOT_IMPLEMENTED in ret (s, tt).

  (** 1045-1067; NULL out pointers are allowed *)
  Definition fmi3UpdateDiscreteStates : AF F D (Status * option (EventInfo F)) :=
    BEGIN MASK_AnyState None (
      let k st :=
        let* u := getM m in
        ret (st, Some (mkEventInfo (newDiscreteStatesNeeded u) (terminateSimulation u) (nominalsChanged u)
                                   (valuesChanged u) (nextEventTimeDefined u) (nextEventTime u))) in
      if m_eventUpdate m then
        let* s := call (m_eventUpdateF m) in CALLk OK s None k
      else k OK).

  (** 1073-1077 *)
  Definition fmi3EnterContinuousTimeMode : AF F D (Status * unit) :=
    BEGIN MASK_EnterContinuousTimeMode tt (setMode m ContinuousTimeMode ;;; ret (OK, tt)).

  (** 1079-1094; the arguments say which pointers are non-NULL (Some tt).  Output:
      the values written to enterEventMode and terminateSimulation. *)
  Definition fmi3CompletedIntegratorStep (p1 p2 : option unit) : AF F D (Status * option (bool * bool)) :=
    BEGIN MASK_CompletedIntegratorStep None (
      ASSERT_NOT_NULL p1 None (ASSERT_NOT_NULL p2 None (ret (OK, Some (false, false))))).

  (** 1097-1101 *)
  Definition fmi3SetTime (t : F) : AF F D (Status * unit) :=
    BEGIN MASK_SetTime tt (modC m (set_time t) ;;; ret (OK, tt)).

  (** 1103-1109 *)
  Definition fmi3SetContinuousStates (x : Buf F) (n : nat) : AF F D (Status * unit) :=
    BEGIN MASK_SetContinuousStates tt (
      let* s := call (m_setContinuousStates m x n) in CALLk OK s tt (fun st => ret (st, tt))).

  (** 1112-1142: [CALL(f(S, array, n))] *)
  Definition fmi3GetArray (f : Buf F -> nat -> MF F D (Status * Buf F)) (x : Buf F) (n : nat)
    : AF F D (Status * Buf F) :=
    BEGIN MASK_GetContinuousStateDerivatives x (
      let* r := call (f x n) in CALLk OK (fst r) (snd r) (fun st => ret (st, snd r))).
  Definition fmi3GetContinuousStateDerivatives := fmi3GetArray (m_getDerivatives m).   (* 1112 *)
  Definition fmi3GetEventIndicators := fmi3GetArray (m_getEventIndicators m).          (* 1120 *)
  Definition fmi3GetContinuousStates := fmi3GetArray (m_getContinuousStates m).        (* 1128 *)
  Definition fmi3GetNominalsOfContinuousStates := fmi3GetArray (m_getNominals m).      (* 1136 *)

  (** 1144-1156; [p]: the out pointer is non-NULL *)
  Definition fmi3GetNumber (f : Mut F D -> nat) (p : bool) : AF F D (Status * option nat) :=
    BEGIN MASK_AnyState None (
      let* u := getM m in if p then ret (OK, Some (f u)) else ubM).
  Definition fmi3GetNumberOfEventIndicators := fmi3GetNumber (m_nz m).      (* 1144 *)
  Definition fmi3GetNumberOfContinuousStates := fmi3GetNumber (m_nx m).     (* 1151 *)

  (** 1162-1166 *)
  Definition fmi3EnterStepMode : AF F D (Status * unit) :=
    BEGIN MASK_EnterStepMode tt (setMode m StepMode ;;; ret (OK, tt)).

  (** 1179-1181; the pointer [&values[i]] is NULL only for i = 0 of a NULL array;
      forming it for i > 0 is undefined *)
  Fixpoint outputDerivative_loop (vrs : Buf N) (n i : nat) (orders : Buf Z) (values : Buf F) (st : Status)
    : AF F D (Status * Buf F) :=
    match n with
    | O => ret (st, values)
    | S n' =>
        let* vr := rd vrs i in
        let* o := rd orders i in
        if isNull values && negb (Nat.eqb i 0) then ubM else
        let* r := call (m_getOutputDerivative m (isNull values) vr o) in
        let* values' := match snd r with Some v => wr values i v | None => ret values end in
        CALLk st (fst r) values' (fun st' => outputDerivative_loop vrs n' (S i) orders values' st')
    end.

  (** 1168-1192; nValues is unused *)
  Definition fmi3GetOutputDerivatives (vrs : Buf N) (nvr : nat) (orders : Buf Z) (values : Buf F)
    : AF F D (Status * Buf F) :=
    BEGIN MASK_GetOutputDerivatives values (
      if m_outputDerivative m then outputDerivative_loop vrs nvr 0 orders values OK
      else let* s := NOT_IMPLEMENTED in ret (s, values)).

  (** 1233-1235 *)
  Definition pointReached (ncp : F) (c : Ctl F) : bool :=
    let next := nadd (time c) (m_step m) in
    nlt ncp next && negb (isClose next ncp).

  (** The loop 1231-1273.  [ehn] is *eventHandlingNeeded.  Result: status,
      *eventHandlingNeeded, nextCommunicationPointReached (last value). *)
  Fixpoint doStep_loop (fuel : nat) (ncp : F) (ehn : bool) (st : Status)
    : AF F D (Status * bool * bool) :=
    match fuel with
    | O => nofuelM
    | S fuel' =>
        let* c := getC m in
        let reached := pointReached ncp c in                                (* 1233-1235 *)
        if reached || (ehn && earlyReturnAllowed c) then ret (st, ehn, reached) else  (* 1237 *)
        let* ehn :=                                                          (* 1241-1246 *)
          if m_eventUpdate m && ehn
          then call (m_eventUpdateF m) ;;; ret false else ret ehn in
        let* r := doFixedStep m env in                                       (* 1250 *)
        let '(s, se, te) := r in
        let* st := CALL st s in
        if stops st then ret (st, ehn, reached) else
        let rest ehn st :=                                                   (* 1270-1272 *)
          let* u := getM m in
          if terminateSimulation u then ret (st, ehn, reached)
          else doStep_loop fuel' ncp ehn st in
        if m_eventUpdate m then
          match (match se with Some true => Some true
                             | Some false => te | None => None end) with     (* 1253 *)
          | None => ubM                                                      (* read uninitialised *)
          | Some false => rest ehn st
          | Some true =>
              if eventModeUsed c then
                if earlyReturnAllowed c then ret (st, true, reached) else rest true st
              else
                let* s := call (m_eventUpdateF m) in                         (* 1258 *)
                let* st := CALL st s in
                if stops st then ret (st, ehn, reached) else
                if Nat.ltb 0 (m_maxZ m) then                                 (* 1260 *)
                  let* o := getSol m in
                  let* r := call (m_getEventIndicators m (Some (prez o)) (nz o)) in
                  match snd r with None => ubM | Some p => modSol m (set_prez p) end ;;;
                  let* st := CALL st (fst r) in
                  if stops st then ret (st, ehn, reached) else
                  if earlyReturnAllowed c then ret (st, ehn, reached) else rest ehn st
                else
                  if earlyReturnAllowed c then ret (st, ehn, reached) else rest ehn st
          end
        else rest ehn st
    end.

  (** 1194-1286.  [p..]: which out pointers are non-NULL. *)
  Definition fmi3DoStep (fuel : nat) (ccp h : F) (pEvent pTerminate pEarly pLast : bool)
    : AF F D (Status * DoStepOut F) :=
    let none := mkDoStepOut None None None None in
    BEGIN MASK_DoStep none (
      let* c := getC m in
      if negb (isClose ccp (nextCommunicationPoint c)) then               (* 1206 *)
        logError ;;; CALLk OK Error none (fun st => ret (st, none))
      else if nle h nzero then                                            (* 1212 *)
        logError ;;; CALLk OK Error none (fun st => ret (st, none))
      else
      let ncp := nadd ccp h in                                            (* 1217 *)
      if nlt (stopTime c) ncp && negb (isClose ncp (stopTime c)) then     (* 1219 *)
        logError ;;; CALLk OK Error none (fun st => ret (st, none))
      else
      if negb (pEvent && pTerminate && pEarly) then ubM else              (* 1227-1229 *)
      let* r := doStep_loop fuel ncp false OK in
      let '(st, ehn, reached) := r in
      if stops st then ret (st, mkDoStepOut (Some ehn) (Some false) (Some false) None) else
      let* u := getM m in
      let* c := getC m in
      if negb pLast then ubM else                                         (* 1277 *)
      modC m (set_nextCommunicationPoint (if reached then nadd ccp h else time c)) ;;;
      ret (st, mkDoStepOut (Some ehn) (Some (terminateSimulation u))
                           (Some (earlyReturnAllowed c && negb reached)) (Some (time c)))).

  (** 1288-1294 *)
  Definition fmi3ActivateModelPartition (vr : N) (t : F) : AF F D (Status * unit) :=
    BEGIN MASK_ActivateModelPartition tt (
      let* s := call (m_activateModelPartition m vr t) in CALLk OK s tt (fun st => ret (st, tt))).

  (** ** Instantiation.  [None] = NULL. *)
  (** 254-285 *)
  Definition fmi3InstantiateModelExchange (name token resource : option bytes) (loggingOn : bool)
             (environment : N) (logger : bool) : res (option (Inst F D) * list (Event F)) :=
    if m_modelExchange m
    then createModelInstance m env logger false environment name token resource loggingOn ModelExchange
    else Done (None, []).

  (** 287-331; visible and the required intermediate variables are unused *)
  Definition fmi3InstantiateCoSimulation (name token resource : option bytes) (loggingOn : bool)
             (eventModeUsed_ earlyReturnAllowed_ : bool) (environment : N) (logger intermediate : bool)
    : res (option (Inst F D) * list (Event F)) :=
    if negb (m_eventUpdate m) && eventModeUsed_ then
      Done (None, if logger then [ELog Error CatError] else [])
    else
      match createModelInstance m env logger intermediate environment name token resource loggingOn CoSimulation with
      | Done (Some i, t) =>
          Done (Some (set_ctl (set_mode Instantiated (set_eventModeUsed eventModeUsed_
                       (set_earlyReturnAllowed earlyReturnAllowed_ (ctl i)))) i), t)
      | r => r
      end.

  (** 372-377 *)
  Definition setSchedulerCallbacks (clockUpdate lock unlock : bool) (c : Ctl F) : Ctl F :=
    mkCtl (startTime c) (stopTime c) (time c) (instanceName c) (itype c) (resourceLocation c) (istatus c)
          (hasLogger c) (hasIntermediateUpdate c) clockUpdate lock unlock
          (logEvents c) (logErrors c) (componentEnvironment c) Instantiated (nSteps c)
          (earlyReturnAllowed c) (eventModeUsed c) (nextCommunicationPoint c).

  (** 333-381 *)
  Definition fmi3InstantiateScheduledExecution (name token resource : option bytes) (loggingOn : bool)
             (environment : N) (logger clockUpdate lock unlock : bool)
    : res (option (Inst F D) * list (Event F)) :=
    if m_scheduled m then
      match createModelInstance m env logger false environment name token resource loggingOn ScheduledExecution with
      | Done (Some i, t) => Done (Some (set_ctl (setSchedulerCallbacks clockUpdate lock unlock (ctl i)) i), t)
      | r => r
      end
    else Done (None, []).
End Fmi3.

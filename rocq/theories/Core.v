(** Core.v -- src/cosimulation.c: instance creation, reset, logging, FMU states and
    the fixed-step solver.  Generic in the FMU [m]. *)

From Coq Require Import List NArith ZArith Bool Arith.
From Verif Require Import Base Instance ModelIface.
Import ListNotations.
Set Implicit Arguments.

(** Framework functions work on the whole instance. *)
Definition AF (F D X : Type) : Type := SW (Event F) (Inst F D) X.

(** 2^64, for the wrap-around of uint64_t. *)
Definition two64 : N := (2 ^ 64)%N.

Section Core.
  Context {F : Type} {NF : Num F} (m : Model F) (env : Env).
  Notation D := (md m).
  Open Scope sw_scope.

  Definition getC : AF F D (Ctl F) := fun i => Done (ctl i, i, []).
  Definition getM : AF F D (Mut F D) := fun i => Done (mut i, i, []).
  Definition getSol : AF F D (Sol F) := fun i => Done (sol i, i, []).
  Definition modC (f : Ctl F -> Ctl F) : AF F D unit := modS (fun i => set_ctl (f (ctl i)) i).
  Definition modM (f : Mut F D -> Mut F D) : AF F D unit := modS (fun i => set_mut (f (mut i)) i).
  Definition modSol (f : Sol F -> Sol F) : AF F D unit := modS (fun i => set_sol (f (sol i)) i).
  Definition setMode (s : ModelState) : AF F D unit := modC (set_mode s).

  (** Call a model function on the instance. *)
  Definition call {X} (f : MF F D X) : AF F D X :=
    fun i => match f env (ctl i) (mut i) with
             | Done (a, u, t) => Done (a, set_mut u i, t)
             | UB => UB
             | NoFuel => NoFuel
             end.

  (** cosimulation.c:314-322 *)
  Definition logError : AF F D unit := call mlogError.

  (** cosimulation.c:192-201; [true] = invalid *)
  Definition invalidNumber (actual expected : N) : AF F D bool :=
    if N.eqb actual expected then ret false
    else setMode Terminated ;;; logError ;;; ret true.

  (** cosimulation.c:224-233; [true] = NULL *)
  Definition nullPointer {T} (p : option T) : AF F D bool :=
    match p with
    | None => setMode Terminated ;;; logError ;;; ret true
    | Some _ => ret false
    end.

  (** Categories accepted by setDebugLogging, cosimulation.c:249-252 *)
  Definition s_logEvents : bytes :=
    [Byte.x6c; Byte.x6f; Byte.x67; Byte.x45; Byte.x76; Byte.x65; Byte.x6e; Byte.x74; Byte.x73].
  Definition s_logStatusError : bytes :=
    [Byte.x6c; Byte.x6f; Byte.x67; Byte.x53; Byte.x74; Byte.x61; Byte.x74; Byte.x75; Byte.x73;
     Byte.x45; Byte.x72; Byte.x72; Byte.x6f; Byte.x72].

  (** cosimulation.c:244-258, the loop over [categories[i]], i = i0 .. i0+n-1 *)
  Fixpoint setDebugLogging_loop (loggingOn : bool) (cats : list (option bytes)) (n : nat)
    {struct n} : AF F D Status :=
    match n with
    | O => ret OK
    | S n' =>
        match cats with
        | [] => ubM                                    (* categories[i] out of bounds *)
        | None :: _ => logError ;;; ret Error
        | Some c :: cats' =>
            if streq c s_logEvents then
              modC (set_logEvents loggingOn) ;;; setDebugLogging_loop loggingOn cats' n'
            else if streq c s_logStatusError then
              modC (set_logErrors loggingOn) ;;; setDebugLogging_loop loggingOn cats' n'
            else logError ;;; ret Error
        end
    end.

  (** cosimulation.c:235-267 *)
  Definition setDebugLogging (loggingOn : bool) (nCategories : nat)
             (categories : Buf (option bytes)) : AF F D Status :=
    if Nat.ltb 0 nCategories then
      match categories with
      | None => logError ;;; ret Error
      | Some cats => setDebugLogging_loop loggingOn cats nCategories
      end
    else
      modC (set_logEvents loggingOn) ;;; modC (set_logErrors loggingOn) ;;; ret OK.

  (** The instance as left by calloc (cosimulation.c:69) and the assignments
      71-102 up to the call of setStartValues.  [Inst] of all zero bits: numbers 0.0,
      flags false; the arrays have MAX_... elements. *)
  Definition blank (name : bytes) (resource : option bytes) (environment : N) (typ : InterfaceType)
             (logger intermediate loggingOn : bool) : Inst F D :=
    mkInst
      (mkCtl nzero nzero nzero name typ resource OK logger intermediate false false false
             loggingOn true environment Instantiated 0%N false false nzero)
      (mkMut false false false false false nzero false false (md0 m))
      (mkSol 0 (repeat nzero (m_maxZ m)) (repeat nzero (m_maxZ m))
             0 (repeat nzero (m_maxX m)) (repeat nzero (m_maxX m))).

  (** cosimulation.c:24-109 createModelInstance.  Result [None] = NULL.  Allocation is
      assumed to succeed (lines 87-90 not modelled).  The events are the calls of the
      logger. *)
  Definition createModelInstance (logger intermediate : bool) (environment : N)
             (name token resource : option bytes) (loggingOn : bool) (typ : InterfaceType)
    : res (option (Inst F D) * list (Event F)) :=
    let reject := Done (None, if logger then [ELog Error CatError] else []) in
    match name with
    | None => reject
    | Some n =>
        if Nat.eqb (strlen n) 0 then reject else
        match token with
        | None => reject
        | Some t =>
            if Nat.eqb (strlen t) 0 then reject else
            if negb (streq t (m_token m)) then reject else
            match (call (m_setStartValues m) ;;; modM (set_dirty true))
                    (blank (cstr n) (option_map cstr resource) environment typ logger intermediate loggingOn) with
            | Done (_, i, tr) => Done (Some i, tr)
            | UB => UB
            | NoFuel => NoFuel
            end
        end
    end.

  (** cosimulation.c:21 the local CALL: return on any status but OK. *)
  Definition CALLc {X} (f : AF F D Status) (fin : Status -> X) (k : AF F D X) : AF F D X :=
    let* s := f in match s with OK => k | _ => ret (fin s) end.

  (** cosimulation.c:149-150, under MAX_EVENT_INDICATORS *)
  Definition configurate_z : AF F D Status :=
    if Nat.ltb 0 (m_maxZ m) then
      let* u := getM in
      modSol (set_nz (m_nz m u)) ;;;
      let* s := getSol in
      let* r := call (m_getEventIndicators m (Some (prez s)) (nz s)) in
      match snd r with
      | Some p => modSol (set_prez p) ;;; ret (fst r)
      | None => ubM
      end
    else ret OK.

  (** cosimulation.c:154, under MAX_CONTINUOUS_STATES *)
  Definition configurate_x : AF F D unit :=
    if Nat.ltb 0 (m_maxX m) then
      let* u := getM in modSol (set_nx (m_nx m u))
    else ret tt.

  (** cosimulation.c:144-158 *)
  Definition configurate : AF F D Status :=
    CALLc configurate_z (fun s => s) (configurate_x ;;; ret OK).

  (** cosimulation.c:160-171; the status of setStartValues is ignored *)
  Definition reset : AF F D Status :=
    setMode Instantiated ;;;
    modC (set_startTime nzero) ;;;
    modC (set_time nzero) ;;;
    modC (set_nSteps 0%N) ;;;
    modC (set_istatus OK) ;;;
    call (m_setStartValues m) ;;;
    modM (set_dirty true) ;;;
    ret OK.

  (** [memcpy(dst, src, n * sizeof(double))] on arrays of doubles; [None]: outside. *)
  Definition copyn (n : nat) (src dst : list F) : option (list F) :=
    if Nat.leb n (length src) && Nat.leb n (length dst)
    then Some (firstn n src ++ skipn n dst) else None.

  (** cosimulation.c:600-662, the assignments (605-659) for non-NULL arguments.
      [s] is the saved ModelInstance.  The pointers contained in [s] are not read. *)
  Definition restoreCtl (s c : Ctl F) : Ctl F :=
    mkCtl (startTime s) (stopTime s) (time s)                        (* 607-609 *)
          (instanceName c) (itype c) (resourceLocation c)
          (istatus s)                                                (* 614 *)
          (hasLogger c) (hasIntermediateUpdate c) (hasClockUpdate c)
          (hasLockPreemption c) (hasUnlockPreemption c)
          (logEvents c) (logErrors c) (componentEnvironment c)
          (mode s) (nSteps s)                                        (* 627, 641, 659 *)
          (earlyReturnAllowed s) (eventModeUsed s)                   (* 643-644 *)
          (nextCommunicationPoint s).                                (* 645 *)
  Definition restoreMut (s u : Mut F D) : Mut F D :=
    mkMut (newDiscreteStatesNeeded s) (terminateSimulation s)        (* 629-635 *)
          (nominalsChanged s) (valuesChanged s)
          (nextEventTimeDefined s) (nextEventTime s) (clocksTicked s)
          (dirty s) (data s).                                        (* 637, 639 *)
  Definition restoreSol (s o : Sol F) : option (Sol F) :=            (* 647-657 *)
    match copyn (nz s) (za s) (za o), copyn (nz s) (prez s) (prez o),
          copyn (nx s) (xa s) (xa o), copyn (nx s) (dxa s) (dxa o) with
    | Some z', Some p', Some x', Some d' => Some (mkSol (nz s) z' p' (nx s) x' d')
    | _, _, _, _ => None
    end.
  Definition setFMUState (s : option (Inst F D)) : AF F D Status :=
    match s with
    | None => logError ;;; ret Error                                 (* 603 *)
    | Some s =>
        fun i => match restoreSol (sol s) (sol i) with
                 | Some o => Done (OK, mkInst (restoreCtl (ctl s) (ctl i))
                                              (restoreMut (mut s) (mut i)) o, [])
                 | None => UB
                 end
    end.

  (** cosimulation.c:673-675 *)
  Definition euler (n : nat) (x dx : list F) : option (list F) :=
    if Nat.leb n (length x) && Nat.leb n (length dx)
    then Some (map (fun p => nadd (fst p) (nmul (m_step m) (snd p)))
                   (combine (firstn n x) (firstn n dx)) ++ skipn n x)
    else None.

  (** cosimulation.c:695-697, one indicator *)
  Definition crossed (p z : F) : bool :=
    (nle p nzero && nlt nzero z) || (nlt nzero p && nle z nzero).
  (** cosimulation.c:694-698 *)
  Definition crossings (n : nat) (p z : list F) : option bool :=
    if Nat.leb n (length p) && Nat.leb n (length z)
    then Some (existsb (fun q => crossed (fst q) (snd q)) (combine (firstn n p) (firstn n z)))
    else None.

  (** cosimulation.c:666-679 *)
  Definition fixedStep_x : AF F D Status :=
    let* o := getSol in
    if Nat.ltb 0 (nx o) then
      let* r := call (m_getContinuousStates m (Some (xa o)) (nx o)) in
      match snd r with None => ubM | Some x => modSol (set_xa x) end ;;;
      match fst r with
      | OK =>
          let* r := call (m_getDerivatives m (Some (dxa o)) (nx o)) in
          match snd r with None => ubM | Some dx => modSol (set_dxa dx) end ;;;
          match fst r with
          | OK =>
              let* o := getSol in
              match euler (nx o) (xa o) (dxa o) with
              | None => ubM
              | Some x => modSol (set_xa x) ;;; call (m_setContinuousStates m (Some x) (nx o))
              end
          | s => ret s
          end
      | s => ret s
      end
    else ret OK.

  (** cosimulation.c:681-683; nSteps is a uint64_t *)
  Definition fixedStep_time : AF F D unit :=
    modC (fun c => set_nSteps (N.modulo (nSteps c + 1) two64) c) ;;;
    modC (fun c => set_time (nadd (startTime c) (nmul (nofN (nSteps c)) (m_step m))) c).

  (** cosimulation.c:686-703; [stateEvent] is false before. *)
  Definition fixedStep_z : AF F D (Status * bool) :=
    let* o := getSol in
    if Nat.ltb 0 (nz o) then
      let* r := call (m_getEventIndicators m (Some (za o)) (nz o)) in
      match snd r with None => ubM | Some z => modSol (set_za z) end ;;;
      match fst r with
      | OK =>
          let* o := getSol in
          match crossings (nz o) (prez o) (za o), copyn (nz o) (za o) (prez o) with
          | Some b, Some p => modSol (set_prez p) ;;; ret (OK, b)
          | _, _ => ubM
          end
      | s => ret (s, false)
      end
    else ret (OK, false).

  (** cosimulation.c:664-725.  Result: status, stateEvent, timeEvent ([None]: not
      assigned).  The intermediateUpdate callback's outputs are ignored by the code. *)
  Definition doFixedStep : AF F D (Status * option bool * option bool) :=
    let* s := fixedStep_x in
    match s with
    | OK =>
        fixedStep_time ;;;
        let* (s, ev) := fixedStep_z in
        match s with
        | OK =>
            let* c := getC in
            let* u := getM in
            (if hasIntermediateUpdate c then tell (EIntermediateUpdate (time c)) else ret tt) ;;;
            ret (OK, Some ev, Some (nextEventTimeDefined u && nle (nextEventTime u) (time c)))
        | _ => ret (s, Some ev, None)
        end
    | _ => ret (s, None, None)
    end.
End Core.

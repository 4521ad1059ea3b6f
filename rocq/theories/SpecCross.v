(** SpecCross.v -- specification vocabulary for C23: one importer's script, played to the FMI 2 and
    to the FMI 3 build of an FMU. *)
From Coq Require Import List NArith ZArith Bool Arith.
From Verif Require Import Base Instance ModelIface Core Fmi3 Fmi2 Api Fmus SpecModes.
Import ListNotations.
Set Implicit Arguments.

Section SpecCross.
  Context {F : Type} {NF : Num F}.

  (** What an importer may want of an FMU, whatever the FMI version. *)
  Inductive Call :=
  | CSet (t : VType) (vrs : list N) (values : list (val F t))
  | CGet (t : VType) (vrs : list N) (values : list (val F t))      (* values: the buffer for the answer *)
  | CSetBoolean (vrs : list N) (values : list bool)
  | CGetBoolean (vrs : list N) (values : list bool)
  | CSave                                                          (* a new FMU state; they are numbered from 0 *)
  | CRestore (k : nat)
  | CForget (k : nat)
  | CCopy (k : nat)                                                (* FMU state k is serialized, and the bytes are read as a new one *)
  | CInit (start : F) (stopDefined : bool) (stop : F)
  | CExitInit
  | CStep (ccp h : F)
  | CTerminate
  | CReset
  | CEnterEvent
  | CUpdate
  | CEnterContinuous
  | CCompleted
  | CSetTime (t : F)
  | CSetStates (x : list F) (n : nat)
  | CStates (x : list F) (n : nat)
  | CDerivatives (x : list F) (n : nat)
  | CIndicators (x : list F) (n : nat)
  | CNominals (x : list F) (n : nat)
  | CDirectional (us ks : list N) (seed sens : list F).

  (** The types of variables both versions have; Boolean is treated apart, because the argument
      types of the functions differ: fmi2Boolean is an int. *)
  Definition basic (t : VType) : bool := match t with TFloat64 | TInt32 | TString => true | _ => false end.

  Definition int_of_bool (b : bool) : Z := if b then 1%Z else 0%Z.

  Section Ops.
    Context {D : Type}.
    (** The call in FMI 3... *)
    Definition op3 (c : Call) : Op3 F D :=
      match c with
      | CSet t vrs v => O3Set t (Some vrs) (length vrs) (Some v) (length vrs)
      | CGet t vrs v => O3Get t (Some vrs) (length vrs) (Some v) (length vrs)
      | CSetBoolean vrs v => O3Set TBoolean (Some vrs) (length vrs) (Some (v : list (val F TBoolean))) (length vrs)
      | CGetBoolean vrs v => O3Get TBoolean (Some vrs) (length vrs) (Some (v : list (val F TBoolean))) (length vrs)
      | CSave => O3GetFMUState true None
      | CRestore k => O3SetFMUState (Some k)
      | CForget k => O3FreeFMUState true (Some k)
      | CCopy _ => O3SerializedFMUStateSize true
      | CInit a d b => O3EnterInitializationMode a d b
      | CExitInit => O3ExitInitializationMode
      | CStep c h => O3DoStep c h true true true true
      | CTerminate => O3Terminate
      | CReset => O3Reset
      | CEnterEvent => O3EnterEventMode
      | CUpdate => O3UpdateDiscreteStates
      | CEnterContinuous => O3EnterContinuousTimeMode
      | CCompleted => O3CompletedIntegratorStep (Some tt) (Some tt)
      | CSetTime t => O3SetTime t
      | CSetStates x n => O3SetContinuousStates (Some x) n
      | CStates x n => O3GetContinuousStates (Some x) n
      | CDerivatives x n => O3GetContinuousStateDerivatives (Some x) n
      | CIndicators x n => O3GetEventIndicators (Some x) n
      | CNominals x n => O3GetNominalsOfContinuousStates (Some x) n
      | CDirectional us ks seed sens =>
          O3GetDirectionalDerivative (Some us) (length us) (Some ks) (length ks) (Some seed) (Some sens)
      end.
    (** ... and in FMI 2, where the start of the initialisation takes two calls: this one and
        fmi2EnterInitializationMode.  (A copy takes three calls in both versions: the first one asks for the size.) *)
    Definition op2 (c : Call) : Op2 F D :=
      match c with
      | CSet t vrs v => O2Set t (Some vrs) (length vrs) (Some v)
      | CGet t vrs v => O2Get t (Some vrs) (length vrs) (Some v)
      | CSetBoolean vrs v => O2SetBoolean (Some vrs) (length vrs) (Some (map int_of_bool v))
      | CGetBoolean vrs v => O2GetBoolean (Some vrs) (length vrs) (Some (map int_of_bool v))
      | CSave => O2GetFMUstate true None
      | CRestore k => O2SetFMUstate (Some k)
      | CForget k => O2FreeFMUstate true (Some k)
      | CCopy _ => O2SerializedFMUstateSize true
      | CInit a d b => O2SetupExperiment a d b
      | CExitInit => O2ExitInitializationMode
      | CStep c h => O2DoStep c h
      | CTerminate => O2Terminate
      | CReset => O2Reset
      | CEnterEvent => O2EnterEventMode
      | CUpdate => O2NewDiscreteStates true
      | CEnterContinuous => O2EnterContinuousTimeMode
      | CCompleted => O2CompletedIntegratorStep (Some tt) (Some tt)
      | CSetTime t => O2SetTime t
      | CSetStates x n => O2SetContinuousStates (Some x) n
      | CStates x n => O2GetContinuousStates (Some x) n
      | CDerivatives x n => O2GetDerivatives (Some x) n
      | CIndicators x n => O2GetEventIndicators (Some x) n
      | CNominals x n => O2GetNominals (Some x) n
      | CDirectional us ks seed sens =>
          O2GetDirectionalDerivative (Some us) (length us) (Some ks) (length ks) (Some seed) (Some sens)
      end.
  End Ops.

  Section Drive.
    Context (m : Model F) (szof : N) (fuel : nat).
    Notation D := (md m).
    Definition Answer : Type := (Status * Out F D * Sys F D * list (Event F))%type.
    (** One call and the next with its answer *)
    Definition next_call (a : res Answer) (k : Out F D -> Sys F D -> option (res Answer)) : res Answer :=
      match a with
      | Done (OK, o, s1, t1) =>
          match k o s1 with
          | Some (Done (st, out, s2, t2)) => Done (st, out, s2, t1 ++ t2)
          | Some r => r
          | None => a
          end
      | r => r
      end.
    Definition copy3 (e : Env) (k : nat) (s : Sys F D) : res Answer :=
      next_call (exec3 m szof fuel e (O3SerializedFMUStateSize true) s) (fun o s => match o with
        | OSize (Some n) => Some (next_call (exec3 m szof fuel e (O3SerializeFMUState (Some k) (Some (mkBlob n None)) n) s) (fun o s => match o with
            | OBlob b => Some (exec3 m szof fuel e (O3DeserializeFMUState b n true None) s)
            | _ => None
            end))
        | _ => None
        end).
    Definition copy2 (e : Env) (k : nat) (s : Sys F D) : res Answer :=
      next_call (exec2 m szof fuel e (O2SerializedFMUstateSize true) s) (fun o s => match o with
        | OSize (Some n) => Some (next_call (exec2 m szof fuel e (O2SerializeFMUstate (Some k) (Some (mkBlob n None)) n) s) (fun o s => match o with
            | OBlob b => Some (exec2 m szof fuel e (O2DeSerializeFMUstate b n true None) s)
            | _ => None
            end))
        | _ => None
        end).
    Definition do3 (e : Env) (c : Call) (s : Sys F D) : res Answer :=
      match c with CCopy k => copy3 e k s | _ => exec3 m szof fuel e (op3 c) s end.
    Definition do2 (e : Env) (c : Call) (s : Sys F D) : res Answer :=
      match c with
      | CInit _ _ _ => next_call (exec2 m szof fuel e (op2 c) s) (fun _ s => Some (exec2 m szof fuel e O2EnterInitializationMode s))
      | CCopy k => copy2 e k s
      | _ => exec2 m szof fuel e (op2 c) s
      end.
  End Drive.

  (** The state of an FMI 3 instance that corresponds to a state of FMI 2. *)
  Definition mode3 (x : ModelState) : ModelState := match x with StepComplete => StepMode | _ => x end.
  (** Both standards allow the call in this (FMI 2) state. *)
  Definition allowed {D} (c : Call) (x : ModelState) : Prop :=
    In x (when2 (D := D) (op2 c)) /\ In (mode3 x) (when3 (D := D) (op3 c)).
  Definition is_step (c : Call) : bool := match c with CStep _ _ => true | _ => false end.
  Definition is_init (c : Call) : bool := match c with CInit _ _ _ => true | _ => false end.
  (** Whether the FMU has asked to stop: from a DoStep that returned Discard to the next initialisation, or until
      a state is restored; [saved]: what it was when the FMU states were saved. *)
  Definition stopped' (c : Call) (st : Status) (saved : list bool) (stopped : bool) : bool :=
    match c with
    | CStep _ _ => match st with Discard => true | _ => stopped end
    | CInit _ _ _ => false
    | CRestore k => nth k saved stopped
    | _ => stopped
    end.
  Definition saved' (c : Call) (stopped : bool) (saved : list bool) : list bool :=
    match c with CSave => saved ++ [stopped] | CCopy k => saved ++ [nth k saved stopped] | _ => saved end.

  (** What the two builds answer to a call.  All values and messages are equal; a DoStep that
      ends the simulation returns Discard in FMI 2 and sets terminateSimulation in FMI 3, which always is what
      fmi2GetBooleanStatus(fmi2Terminated) returns. *)
  Definition shown {D D'} (o : Out F D) (o' : Out F D') : Prop :=
    match o, o' with
    | ONone, ONone => True
    | OVals t b, OVals t' b' => existT (fun t => Buf (val F t)) t b = existT _ t' b'
    | OBools2 b, OVals TBoolean b' => b = option_map (map int_of_bool) b'
    | OHandle h, OHandle h' => h = h'
    | OFloats b, OFloats b' => b = b'
    | OEventInfo e, OEventInfo e' => e = e'
    | OFlags b, OFlags b' => b = b'
    | _, _ => False
    end.
  Definition stepped_alike {D D'} (st : Status) (o : Out F D) (s : Sys F D) (st' : Status) (o' : Out F D') : Prop :=
    o = ONone /\
    match st with
    | OK => st' = OK /\ o' = ODoStep (mkDoStepOut (Some false) (Some (terminateSimulation (mut (sinst s)))) (Some false) (Some (time (ctl (sinst s)))))
    | Discard => st' = OK /\ o' = ODoStep (mkDoStepOut (Some false) (Some true) (Some false) (Some (time (ctl (sinst s)))))
    | _ => st = Error /\ st' = Error
    end.
  Definition agree {D D'} (c : Call) (a : Status * Out F D * Sys F D * list (Event F))
             (a' : Status * Out F D' * Sys F D' * list (Event F)) : Prop :=
    let '(st, o, s, t) := a in let '(st', o', s', t') := a' in
    t' = t /\ mode (ctl (sinst s')) = mode3 (mode (ctl (sinst s))) /\ time (ctl (sinst s')) = time (ctl (sinst s)) /\
    if is_step c then stepped_alike st o s st' o' else st' = st /\ shown o o'.

  (** The two builds, played the same script of allowed calls, answer alike from call to call:
      either both go on, or neither does (undefined behaviour, endless loop). *)
  Section Play.
    Context (m m' : Model F) (szof szof' : N) (fuel : nat).
    Fixpoint alike (saved : list bool) (stopped : bool) (l : list (Env * Call)) (s : Sys F (md m)) (s' : Sys F (md m')) : Prop :=
      match l with
      | [] => True
      | (e, c) :: l =>
          allowed (D := md m) c (mode (ctl (sinst s))) /\ (is_step c = true -> stopped = false) ->
          match do2 m szof fuel e c s, do3 m' szof' fuel e c s' with
          | Done a, Done a' => agree c a a' /\ let '(st, _, s, _) := a in let '(_, _, s', _) := a' in alike (saved' c stopped saved) (stopped' c st saved stopped) l s s'
          | UB, UB => True
          | NoFuel, NoFuel => True
          | _, _ => False
          end
      end.
  End Play.

  (** The FMI 2 build plays the whole script, every call being allowed, and ends in a state with [P]. *)
  Fixpoint played (m : Model F) (szof : N) (fuel : nat) (saved : list bool) (stopped : bool) (l : list (Env * Call)) (P : Sys F (md m) -> Prop)
           (s : Sys F (md m)) : Prop :=
    match l with
    | [] => P s
    | (e, c) :: l =>
        (allowed (D := md m) c (mode (ctl (sinst s))) /\ (is_step c = true -> stopped = false)) /\
        match do2 m szof fuel e c s with
        | Done (st, _, s', _) => played m szof fuel (saved' c stopped saved) (stopped' c st saved stopped) l P s'
        | _ => False
        end
    end.

  (** The state after a script, in each build. *)
  Fixpoint after_script {D} (call_ : Env -> Call -> Sys F D -> res (Status * Out F D * Sys F D * list (Event F)))
           (l : list (Env * Call)) (s : Sys F D) : res (Sys F D) :=
    match l with
    | [] => Done s
    | (e, c) :: l => match call_ e c s with Done (_, _, s', _) => after_script call_ l s' | UB => UB | NoFuel => NoFuel end
    end.

  (** *** Two new instances *)
  (** An instance of the FMI 2 build... *)
  Definition new2 (m : Model F) (e : Env) (ty : InterfaceType) (name token resource : option bytes) (environment : N) (loggingOn : bool) :=
    fmi2Instantiate m e name ty token resource environment true loggingOn.
  (** ... and of the FMI 3 build, without the features that FMI 2 does not have. *)
  Definition new3 (m : Model F) (e : Env) (ty : InterfaceType) (name token resource : option bytes) (environment : N) (loggingOn : bool) :=
    match ty with
    | ModelExchange => fmi3InstantiateModelExchange m e name token resource loggingOn environment true
    | _ => fmi3InstantiateCoSimulation m e name token resource loggingOn false false environment true false
    end.
  (** Both or neither are created, and if so they answer every script alike. *)
  Definition born_alike (m m' : Model F) (szof szof' : N) (fuel : nat) (l : list (Env * Call))
             (a : res (option (Inst F (md m)) * list (Event F))) (a' : res (option (Inst F (md m')) * list (Event F))) : Prop :=
    match a, a' with
    | Done (Some i, t), Done (Some i', t') => t' = t /\ alike m m' szof szof' fuel [] false l (mkSys i []) (mkSys i' [])
    | Done (None, t), Done (None, t') => t' = t
    | UB, UB => True
    | NoFuel, NoFuel => True
    | _, _ => False
    end.

  (** The calls that mean the same in both builds: they name variables of a type that both
      versions have, with a value for each Boolean.  The enumeration of Feedthrough is an Integer in FMI 2 and an Int64 in FMI 3. *)
  Definition portable (f : FMU) (c : Call) : bool :=
    match c with
    | CSet t vrs _ | CGet t vrs _ =>
        basic t && match f, t with
                   | Feedthrough, TInt32 => forallb (fun vr => negb (N.eqb vr 33 || N.eqb vr 34)) vrs
                   | _, _ => true
                   end
    | CSetBoolean vrs values => Nat.eqb (length values) (length vrs)
    | _ => true
    end.
End SpecCross.
Arguments Call : clear implicits.

(** SpecLife.v -- the order in which an importer uses its instances, and what is left (C71, C72). *)
From Coq Require Import Strings.String List Bool Arith.
From Verif Require Import Base ImpLife.
Import ListNotations.
Set Implicit Arguments.

(** The functions of an FMU for Model Exchange and Co-Simulation in FMI 2 and of any FMU in FMI 3
    (include/fmi2Functions.h 182-235, include/fmi3Functions.h 113-218). *)
Definition declared2 : list string :=
  ["fmi2GetTypesPlatform"; "fmi2GetVersion"; "fmi2SetDebugLogging"; "fmi2Instantiate";
   "fmi2FreeInstance"; "fmi2SetupExperiment"; "fmi2EnterInitializationMode";
   "fmi2ExitInitializationMode"; "fmi2Terminate"; "fmi2Reset"; "fmi2GetReal"; "fmi2GetInteger";
   "fmi2GetBoolean"; "fmi2GetString"; "fmi2SetReal"; "fmi2SetInteger"; "fmi2SetBoolean";
   "fmi2SetString"; "fmi2GetFMUstate"; "fmi2SetFMUstate"; "fmi2FreeFMUstate";
   "fmi2SerializedFMUstateSize"; "fmi2SerializeFMUstate"; "fmi2DeSerializeFMUstate";
   "fmi2GetDirectionalDerivative"]%string.
Definition declared2_me : list string :=
  ["fmi2EnterEventMode"; "fmi2NewDiscreteStates"; "fmi2EnterContinuousTimeMode";
   "fmi2CompletedIntegratorStep"; "fmi2SetTime"; "fmi2SetContinuousStates"; "fmi2GetDerivatives";
   "fmi2GetEventIndicators"; "fmi2GetContinuousStates"; "fmi2GetNominalsOfContinuousStates"]%string.
Definition declared2_cs : list string :=
  ["fmi2SetRealInputDerivatives"; "fmi2GetRealOutputDerivatives"; "fmi2DoStep"; "fmi2CancelStep";
   "fmi2GetStatus"; "fmi2GetRealStatus"; "fmi2GetIntegerStatus"; "fmi2GetBooleanStatus";
   "fmi2GetStringStatus"]%string.
Definition declared3 : list string :=
  ["fmi3GetVersion"; "fmi3SetDebugLogging"; "fmi3InstantiateModelExchange";
   "fmi3InstantiateCoSimulation"; "fmi3InstantiateScheduledExecution"; "fmi3FreeInstance";
   "fmi3EnterInitializationMode"; "fmi3ExitInitializationMode"; "fmi3EnterEventMode"; "fmi3Terminate";
   "fmi3Reset"; "fmi3GetFloat32"; "fmi3GetFloat64"; "fmi3GetInt8"; "fmi3GetUInt8"; "fmi3GetInt16";
   "fmi3GetUInt16"; "fmi3GetInt32"; "fmi3GetUInt32"; "fmi3GetInt64"; "fmi3GetUInt64"; "fmi3GetBoolean";
   "fmi3GetString"; "fmi3GetBinary"; "fmi3GetClock"; "fmi3SetFloat32"; "fmi3SetFloat64"; "fmi3SetInt8";
   "fmi3SetUInt8"; "fmi3SetInt16"; "fmi3SetUInt16"; "fmi3SetInt32"; "fmi3SetUInt32"; "fmi3SetInt64";
   "fmi3SetUInt64"; "fmi3SetBoolean"; "fmi3SetString"; "fmi3SetBinary"; "fmi3SetClock";
   "fmi3GetNumberOfVariableDependencies"; "fmi3GetVariableDependencies"; "fmi3GetFMUState";
   "fmi3SetFMUState"; "fmi3FreeFMUState"; "fmi3SerializedFMUStateSize"; "fmi3SerializeFMUState";
   "fmi3DeserializeFMUState"; "fmi3GetDirectionalDerivative"; "fmi3GetAdjointDerivative";
   "fmi3EnterConfigurationMode"; "fmi3ExitConfigurationMode"; "fmi3GetIntervalDecimal";
   "fmi3GetIntervalFraction"; "fmi3GetShiftDecimal"; "fmi3GetShiftFraction"; "fmi3SetIntervalDecimal";
   "fmi3SetIntervalFraction"; "fmi3SetShiftDecimal"; "fmi3SetShiftFraction";
   "fmi3EvaluateDiscreteStates"; "fmi3UpdateDiscreteStates"; "fmi3EnterContinuousTimeMode";
   "fmi3CompletedIntegratorStep"; "fmi3SetTime"; "fmi3SetContinuousStates";
   "fmi3GetContinuousStateDerivatives"; "fmi3GetEventIndicators"; "fmi3GetContinuousStates";
   "fmi3GetNominalsOfContinuousStates"; "fmi3GetNumberOfEventIndicators";
   "fmi3GetNumberOfContinuousStates"; "fmi3EnterStepMode"; "fmi3GetOutputDerivatives"; "fmi3DoStep";
   "fmi3ActivateModelPartition"]%string.
Definition declared (k : Kind) : list string :=
  match k with Me2 => declared2 ++ declared2_me | Cs2 => declared2 ++ declared2_cs | _ => declared3 end.
Definition named (l : list string) (f : string) : bool := existsb (String.eqb f) l.
(** The importer looks up all of them but two (C71_shift_refuted). *)
Definition forgotten : list string := ["fmi3SetShiftDecimal"; "fmi3SetShiftFraction"]%string.
Definition needed (k : Kind) : list string := filter (fun f => negb (named forgotten f)) (declared k).
(** What may be called between instantiation and release: not the functions that make or release a
    component, and not fmi*SetDebugLogging (C71_format_refuted). *)
Definition reserved : list string :=
  ["fmi2Instantiate"; "fmi2FreeInstance"; "fmi2SetDebugLogging"; "fmi3InstantiateModelExchange"; "fmi3InstantiateCoSimulation";
   "fmi3InstantiateScheduledExecution"; "fmi3FreeInstance"; "fmi3SetDebugLogging"]%string.
Definition offered (k : Kind) : list string := filter (fun f => negb (named reserved f)) (needed k).

(** How far an instance of the importer has come, by what the calls have returned. *)
Inductive Phase := Created | Loaded | Live (k : Kind) | Over | Gone.
Definition Phases := nat -> option Phase.
Definition none_yet : Phases := fun _ => None.
Definition at_phase (ph : Phases) (a : nat) (s : Phase) : Phases := fun x => if Nat.eqb x a then Some s else ph x.

(** create -> load the library -> instantiate -> any other functions -> release the component -> free; a failure of
    loading or instantiation is followed by free only.  NULL may be released and freed.  The two
    FMI versions have their own functions. *)
Inductive permitted (ph : Phases) : LOp -> Prop :=
| may_create f : permitted ph (LCreate true f)
| may_load a : ph a = Some Created -> permitted ph (LLoad (Some a))
| may_instantiate a k x l : ph a = Some Loaded -> permitted ph (LInstantiate (Some a) k x l)
| may_release a k j : ph a = Some (Live j) -> two k = two j -> permitted ph (LRelease (Some a) k)
| may_call a k j f : ph a = Some (Live j) -> two k = two j -> In f (offered j) -> permitted ph (LCall (Some a) k f)
| may_release_null k : permitted ph (LRelease None k)
| may_free a : ph a = Some Created \/ ph a = Some Loaded \/ ph a = Some Over -> permitted ph (LFree (Some a))
| may_free_null : permitted ph (LFree None).

Definition after (ph : Phases) (op : LOp) (out : LOut) : Phases :=
  match op, out with
  | LCreate _ _, LPointer (Some a) => at_phase ph a Created
  | LLoad (Some a), LStatus OK => at_phase ph a Loaded
  | LInstantiate (Some a) k _ _, LStatus OK => at_phase ph a (Live k)
  | LInstantiate (Some a) _ _ _, LStatus _ => at_phase ph a Over
  | LRelease (Some a) _, _ => at_phase ph a Over
  | LFree (Some a), _ => at_phase ph a Gone
  | _, _ => ph
  end.

(** The calls made so far, the newest first, each permitted when it was made. *)
Inductive history (O : Oracle) : list LOp -> Phases -> World -> Prop :=
| no_calls : history O [] none_yet nothing
| one_more ops ph w op out w' t :
    history O ops ph w -> permitted ph op -> lexec O op w = Done (out, w', t) -> history O (op :: ops) (after ph op out) w'.
(** Calls in any order. *)
Fixpoint runs (O : Oracle) (ops : list LOp) (w : World) : res World :=
  match ops with
  | [] => Done w
  | op :: r => match lexec O op w with Done (_, w', _) => runs O r w' | UB => UB | NoFuel => NoFuel end
  end.

(** Every instance that was created has been freed. *)
Definition all_gone (ph : Phases) : Prop := forall a, ph a = None \/ ph a = Some Gone.
(** No memory, no library and no file is left. *)
Definition clean (w : World) : Prop := forall a, blk w a = None.

(** What the theorems ask of the system: the message buffer and the name inside the FMU can be
    allocated ... *)
Definition buffers (O : Oracle) : Prop := forall n, grants O SBuffer n = true.
Definition names (O : Oracle) : Prop := forall n, grants O SCompName n = true.
(** ... and for the programs and FMI 3 Model Exchange the tables too, and all functions are in the library. *)
Definition complete (O : Oracle) (k : Kind) : Prop :=
  (forall n, grants O STable n = true) /\ (forall h f, In f (needed k) -> exports O h f = true).
(** A failure to load the functions leads to FMIFatal, after which the programs release no component. *)
Definition tame (O : Oracle) (k : Kind) : Prop :=
  complete O k \/ match k with Me2 | Cs2 => forall n, grants O STable n = true | Cs3 => True | _ => False end.
Definition is_exchange3 (op : LOp) : Prop := exists p a l, op = LInstantiate p Me3 a l.

(** The function of the FMU that makes a component of this kind. *)
Definition maker (k : Kind) : string :=
  match k with
  | Me2 | Cs2 => "fmi2Instantiate" | Me3 => "fmi3InstantiateModelExchange"
  | Cs3 => "fmi3InstantiateCoSimulation" | Se3 => "fmi3InstantiateScheduledExecution"
  end%string.
(** What an importer can count on between instantiation and release: the instance [a], its library, a
    component with its name, made by the right function, and a table with all functions. *)
Definition usable (k : Kind) (a : nat) (w : World) : Prop :=
  exists i h c n l t L, blk w a = Some (BImp i) /\ i_lib i = Some h /\ blk w h = Some BLibrary /\
    i_comp i = Some c /\ blk w c = Some (BComp (maker k) (Some n) l) /\ blk w n = Some BCName /\
    (if two k then i_f2 i else i_f3 i) = Some t /\ blk w t = Some (BTable L) /\ forall f, In f (needed k) -> In f L.

(** Nothing but a component with its name and its location is left. *)
Definition only_component (w : World) : Prop :=
  exists c f n l, blk w c = Some (BComp f (Some n) l) /\ forall a, blk w a <> None -> a = c \/ a = n \/ l = Some a.

(** When an instantiation succeeds: the FMU accepts, the instance has its name, its library exports all functions,
    and there is memory for the table, the component and its name, which are the requests [n] and following. *)
Definition can (O : Oracle) (i : Imp) (k : Kind) (acc : bool) (n : nat) : Prop :=
  acc = true /\ i_name i <> None /\ (forall f, In f (needed k) -> exports O (i_lib i) f = true) /\
  grants O STable n = true /\ grants O SComp (S n) = true /\ grants O SCompName (S (S n)) = true.

(** The status of a program whose simulation ended with [body]: terminate is called, with the result [t], unless
    there was an error; the worse one counts. *)
Definition total (body t : Status) : Status :=
  match body with
  | OK => t
  | Warning => match t with OK => Warning | _ => t end
  | Discard => match t with OK | Warning => Discard | _ => t end
  | _ => body
  end.

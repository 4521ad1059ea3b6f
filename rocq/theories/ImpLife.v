(** ImpLife.v -- who allocates and releases what: src/FMI.c 84-184 (creation of an FMIInstance,
    loading of the shared library, destruction), the loading of the functions, the instantiation
    and the release of a component in src/FMI2.c 37-59, 136-258 and src/FMI3.c 29-51, 122-457,
    createModelInstance and freeModelInstance of src/cosimulation.c 24-120, and setUp and
    tearDown of examples/util.h 194-266.

    Modelled: which blocks, libraries and files exist, and which pointers lead to them.  Not
    modelled: FMI 1; the texts of the messages and names (a "%s" of a NULL pointer prints as glibc
    does); FMIAppendToLogMessageBuffer moves the buffer with realloc, here the block keeps its
    address (its contents are in ImpBuffer.v); the static variant FMI*_FUNCTION_PREFIX and
    Windows; a dlopen that returns a handle already open counts as a further handle, since each
    dlopen asks for one dlclose. *)
From Coq Require Import Strings.String List Bool Arith.
From Verif Require Import Base.
Import ListNotations.
Open Scope string_scope.
Open Scope list_scope.
Set Implicit Arguments.

(** The fields of FMIInstance that hold something (include/FMI.h 144-179); pointers are
    addresses, [None] is NULL.  [i_logm], [i_logf]: logMessage, logFunctionCall are not NULL. *)
Record Imp := mkImp {
  i_lib : option nat; i_buf : option nat; i_name : option nat;
  i_f2 : option nat; i_f3 : option nat; i_comp : option nat; i_logm : bool; i_logf : bool }.
Definition set_lib (i : Imp) x := mkImp x (i_buf i) (i_name i) (i_f2 i) (i_f3 i) (i_comp i) (i_logm i) (i_logf i).
Definition set_f2 (i : Imp) x := mkImp (i_lib i) (i_buf i) (i_name i) x (i_f3 i) (i_comp i) (i_logm i) (i_logf i).
Definition set_f3 (i : Imp) x := mkImp (i_lib i) (i_buf i) (i_name i) (i_f2 i) x (i_comp i) (i_logm i) (i_logf i).
Definition set_comp (i : Imp) x := mkImp (i_lib i) (i_buf i) (i_name i) (i_f2 i) (i_f3 i) x (i_logm i) (i_logf i).

(** What can be at an address.  [BTable l]: an FMI2Functions or FMI3Functions, of which the
    pointers to the functions [l] are not NULL.  [BComp f n l]: the ModelInstance that the function
    [f] of the FMU has made. *)
Inductive Block :=
| BImp (i : Imp) | BBuffer | BName | BTable (l : list string)
| BComp (made : string) (name location : option nat) | BCName | BCLocation
| BLibrary | BFile.

(** [fresh]: the number of requests for memory, libraries and files so far; the address of what
    the n-th request gives is n. *)
Record World := mkW { blk : nat -> option Block; fresh : nat }.
Definition put (f : nat -> option Block) (a : nat) (b : option Block) : nat -> option Block :=
  fun x => if Nat.eqb x a then b else f x.
Definition nothing : World := mkW (fun _ => None) 0.

(** The places of the code that ask for something. *)
Inductive Site := SInstance | SBuffer | SName | STable | SComp | SCompName | SCompLocation | SLibrary | SFile.

(** The system: whether a request is granted, and whether the library opened by a request (or, for
    a NULL handle, the program itself) exports a symbol. *)
Record Oracle := mkO { grants : Site -> nat -> bool; exports : option nat -> string -> bool }.

Definition M (X : Type) := SW unit World X.

(** calloc, strdup, dlopen, fopen *)
Definition request (O : Oracle) (s : Site) (b : Block) : M (option nat) := fun w =>
  if grants O s (fresh w)
  then Done (Some (fresh w), mkW (put (blk w) (fresh w) (Some b)) (S (fresh w)), [])
  else Done (None, mkW (blk w) (S (fresh w)), []).

(** Access to an object that does not exist is undefined. *)
Definition look (p : option nat) : M Block := fun w =>
  match p with
  | Some a => match blk w a with Some b => Done (b, w, []) | None => UB end
  | None => UB
  end.
Definition drop (a : nat) : M unit := fun w =>
  match blk w a with Some _ => Done (tt, mkW (put (blk w) a None) (fresh w), []) | None => UB end.
Definition write (a : nat) (b : Block) : M unit := fun w =>
  match blk w a with Some _ => Done (tt, mkW (put (blk w) a (Some b)) (fresh w), []) | None => UB end.

Definition heap_block (b : Block) : bool := match b with BLibrary | BFile => false | _ => true end.
(** free: nothing for NULL, otherwise a block that is allocated. *)
Definition cfree (p : option nat) : M unit :=
  match p with
  | None => ret tt
  | Some a => let* b := look p in if heap_block b then drop a else ubM
  end.
Definition dlclose (h : option nat) : M unit :=
  match h with
  | None => ret tt
  | Some a => let* b := look h in match b with BLibrary => drop a | _ => ubM end
  end.
Definition fclose (f : option nat) : M unit :=
  match f with
  | None => ret tt
  | Some a => let* b := look f in match b with BFile => drop a | _ => ubM end
  end.

(** [*instance] *)
Definition instance_at (p : option nat) : M (nat * Imp) :=
  match p with
  | None => ubM
  | Some a => let* b := look p in match b with BImp i => ret (a, i) | _ => ubM end
  end.
(** [*instance->fmi2Functions], [*instance->fmi3Functions] *)
Definition table_at (t : option nat) : M (nat * list string) :=
  match t with
  | None => ubM
  | Some a => let* b := look t in match b with BTable l => ret (a, l) | _ => ubM end
  end.
(** A call through a pointer of the table: undefined if the pointer is NULL. *)
Definition calls (t : option nat) (f : string) : M unit :=
  let* e := table_at t in
  if existsb (String.eqb f) (snd e) then ret tt else ubM.

Section Life.
Variable O : Oracle.

(** ** src/FMI.c *)

(** FMICreateInstance 92-114.  The caller gives a name. *)
Definition FMICreateInstance (logm logf : bool) : M (option nat) :=
  let* p := request O SInstance (BImp (mkImp None None None None None None logm logf)) in          (* 94 *)
  match p with
  | None => ret None                                                                              (* 96-98 *)
  | Some a =>
      let* b := request O SBuffer BBuffer in                                                      (* 106 *)
      let* n := request O SName BName in                                                          (* 109 *)
      write a (BImp (mkImp None b n None None None logm logf)) ;;;
      ret (Some a)
  end.

(** FMILoadPlatformBinary 116-157: the handle is overwritten. *)
Definition FMILoadPlatformBinary (p : option nat) : M Status :=
  let* e := instance_at p in
  let* h := request O SLibrary BLibrary in                                                        (* 148 *)
  write (fst e) (BImp (set_lib (snd e) h)) ;;;
  ret (match h with None => Error | Some _ => OK end).                                            (* 151-156 *)

(** FMIFreeInstance 159-184.  FMIFree 84-90 of a pointer that is about to be freed itself. *)
Definition FMIFreeInstance (p : option nat) : M unit :=
  match p with
  | None => ret tt                                                                                (* 161-163 *)
  | Some a =>
      let* e := instance_at p in
      dlclose (i_lib (snd e)) ;;;                                                                 (* 166-173 *)
      cfree (i_buf (snd e)) ;;;                                                                   (* 175 *)
      cfree (i_name (snd e)) ;;;                                                                  (* 177 *)
      cfree (i_f2 (snd e)) ;;;                                                                    (* 180 *)
      cfree (i_f3 (snd e)) ;;;                                                                    (* 181 *)
      cfree p                                                                                     (* 183 *)
  end.

(** FMIClearLogMessageBuffer and the rest of a logged call: the buffer is written. *)
Definition logs (i : Imp) : M unit :=
  if i_logf i
  then let* b := look (i_buf i) in match b with BBuffer => ret tt | _ => ubM end
  else ret tt.

(** ** src/cosimulation.c *)

(** createModelInstance 24-109, reached from fmi2Instantiate and the fmi3Instantiate functions.
    [made]: the function; [accepts]: the FMU supports the interface type and the token is right; the name is given. *)
Definition createModelInstance (made : string) (name : option nat) (accepts location : bool) : M (option nat) :=
  match name with
  | None => ret None                                                                              (* 36-45 *)
  | Some _ =>
      if accepts then
        let* c := request O SComp (BComp made None None) in                                            (* 69 *)
        match c with
        | None => ret None                                                                        (* 88-91 *)
        | Some a =>
            let* n := request O SCompName BCName in                                               (* 77 *)
            let* l := (if location then request O SCompLocation BCLocation else ret None) in      (* 78 *)
            write a (BComp made n l) ;;;
            match n with None => ret None | Some _ => ret c end                                   (* 88-91 *)
        end
      else ret None                                                                               (* 47-67 *)
  end.

(** freeModelInstance 111-120, called by fmi2FreeInstance and fmi3FreeInstance. *)
Definition freeModelInstance (c : option nat) : M unit :=
  match c with
  | None => ret tt                                                                                (* 113 *)
  | Some a =>
      let* b := look c in
      match b with
      | BComp _ n l => cfree n ;;; cfree l ;;; cfree c                                              (* 115-119 *)
      | _ => ubM
      end
  end.

(** ** src/FMI2.c and src/FMI3.c *)

Inductive Kind := Me2 | Cs2 | Me3 | Cs3 | Se3.

(** The functions that FMI2Instantiate 155-215 and loadSymbols3 138-242 ask for, in this order. *)
Definition common2 : list string :=
  ["fmi2GetTypesPlatform"; "fmi2GetVersion"; "fmi2SetDebugLogging"; "fmi2Instantiate";
   "fmi2FreeInstance"; "fmi2SetupExperiment"; "fmi2EnterInitializationMode";
   "fmi2ExitInitializationMode"; "fmi2Terminate"; "fmi2Reset"; "fmi2GetReal";
   "fmi2GetInteger"; "fmi2GetBoolean"; "fmi2GetString"; "fmi2SetReal"; "fmi2SetInteger";
   "fmi2SetBoolean"; "fmi2SetString"; "fmi2GetFMUstate"; "fmi2SetFMUstate";
   "fmi2FreeFMUstate"; "fmi2SerializedFMUstateSize"; "fmi2SerializeFMUstate";
   "fmi2DeSerializeFMUstate"; "fmi2GetDirectionalDerivative"].
Definition exchange2 : list string :=
  ["fmi2EnterEventMode"; "fmi2NewDiscreteStates"; "fmi2EnterContinuousTimeMode";
   "fmi2CompletedIntegratorStep"; "fmi2SetTime"; "fmi2SetContinuousStates";
   "fmi2GetDerivatives"; "fmi2GetEventIndicators"; "fmi2GetContinuousStates";
   "fmi2GetNominalsOfContinuousStates"].
Definition cosim2 : list string :=
  ["fmi2SetRealInputDerivatives"; "fmi2GetRealOutputDerivatives"; "fmi2DoStep";
   "fmi2CancelStep"; "fmi2GetStatus"; "fmi2GetRealStatus"; "fmi2GetIntegerStatus";
   "fmi2GetBooleanStatus"; "fmi2GetStringStatus"].
Definition symbols3 : list string :=
  ["fmi3GetVersion"; "fmi3SetDebugLogging"; "fmi3InstantiateModelExchange";
   "fmi3InstantiateCoSimulation"; "fmi3InstantiateScheduledExecution"; "fmi3FreeInstance";
   "fmi3EnterInitializationMode"; "fmi3ExitInitializationMode"; "fmi3EnterEventMode";
   "fmi3Terminate"; "fmi3Reset"; "fmi3GetFloat32"; "fmi3GetFloat64"; "fmi3GetInt8";
   "fmi3GetUInt8"; "fmi3GetInt16"; "fmi3GetUInt16"; "fmi3GetInt32"; "fmi3GetUInt32";
   "fmi3GetInt64"; "fmi3GetUInt64"; "fmi3GetBoolean"; "fmi3GetString"; "fmi3GetBinary";
   "fmi3GetClock"; "fmi3SetFloat32"; "fmi3SetFloat64"; "fmi3SetInt8"; "fmi3SetUInt8";
   "fmi3SetInt16"; "fmi3SetUInt16"; "fmi3SetInt32"; "fmi3SetUInt32"; "fmi3SetInt64";
   "fmi3SetUInt64"; "fmi3SetBoolean"; "fmi3SetString"; "fmi3SetBinary"; "fmi3SetClock";
   "fmi3GetNumberOfVariableDependencies"; "fmi3GetVariableDependencies"; "fmi3GetFMUState";
   "fmi3SetFMUState"; "fmi3FreeFMUState"; "fmi3SerializedFMUStateSize";
   "fmi3SerializeFMUState"; "fmi3DeserializeFMUState"; "fmi3GetDirectionalDerivative";
   "fmi3GetAdjointDerivative"; "fmi3EnterConfigurationMode"; "fmi3ExitConfigurationMode";
   "fmi3GetIntervalDecimal"; "fmi3GetIntervalFraction"; "fmi3GetShiftDecimal";
   "fmi3GetShiftFraction"; "fmi3SetIntervalDecimal"; "fmi3SetIntervalFraction";
   "fmi3EvaluateDiscreteStates"; "fmi3UpdateDiscreteStates"; "fmi3EnterContinuousTimeMode";
   "fmi3CompletedIntegratorStep"; "fmi3SetTime"; "fmi3SetContinuousStates";
   "fmi3GetContinuousStateDerivatives"; "fmi3GetEventIndicators"; "fmi3GetContinuousStates";
   "fmi3GetNominalsOfContinuousStates"; "fmi3GetNumberOfEventIndicators";
   "fmi3GetNumberOfContinuousStates"; "fmi3EnterStepMode"; "fmi3GetOutputDerivatives";
   "fmi3DoStep"; "fmi3ActivateModelPartition"].
Definition symbols (k : Kind) : list string :=
  match k with Me2 => common2 ++ exchange2 | Cs2 => common2 ++ cosim2 | _ => symbols3 end.

(** dlsym: the library must be open. *)
Definition dlsym (h : option nat) (f : string) : M bool :=
  match h with
  | None => ret (exports O h f)
  | Some _ => let* b := look h in match b with BLibrary => ret (exports O h f) | _ => ubM end
  end.

(** LOAD_SYMBOL, FMI2.c 52-59 and FMI3.c 44-51: the message goes to logMessage without a check. *)
Fixpoint load (i : Imp) (t : nat) (got rest : list string) : M Status :=
  match rest with
  | [] => ret OK
  | f :: r =>
      let* here := dlsym (i_lib i) f in
      if here
      then write t (BTable (got ++ [f])) ;;; load i t (got ++ [f]) r
      else if i_logm i then ret Fatal else ubM
  end.

(** loadSymbols3 122-253 *)
Definition loadSymbols3 (p : option nat) : M Status :=
  let* e := instance_at p in
  let* t := request O STable (BTable []) in                                                       (* 126 *)
  write (fst e) (BImp (set_f3 (snd e) t)) ;;;
  match t with
  | None => ret Error                                                                             (* 128-130 *)
  | Some a => load (snd e) a [] symbols3                                                          (* 139-242 *)
  end.

(** The part common to the four instantiating functions: the call of the FMU, the log, the check
    of the component.  FMI2.c 227-244, FMI3.c 265-297, 316-372 and 391-439. *)
Definition instantiates (p : option nat) (f : string) (two : bool) (accepts location : bool) (s : Status) : M Status :=
  let* e := instance_at p in
  calls (if two then i_f2 (snd e) else i_f3 (snd e)) f ;;;
  let* c := createModelInstance f (i_name (snd e)) accepts location in
  write (fst e) (BImp (set_comp (snd e) c)) ;;;
  logs (snd e) ;;;
  ret (match c with None => Error | Some _ => s end).

(** FMI2Instantiate 136-245 *)
Definition FMI2Instantiate (p : option nat) (k : Kind) (accepts location : bool) : M Status :=
  let* e := instance_at p in
  let* t := request O STable (BTable []) in                                                       (* 141 *)
  write (fst e) (BImp (set_f2 (snd e) t)) ;;;
  match t with
  | None => ret Error                                                                             (* 143-145 *)
  | Some a =>
      let* s := load (snd e) a [] (symbols k) in                                                  (* 156-215 *)
      match s with
      | OK => instantiates p "fmi2Instantiate" true accepts location OK                           (* 227-244 *)
      | _ => ret s
      end
  end.

(** FMI3InstantiateModelExchange 256-298: the status of the loading is looked at only at the end. *)
Definition FMI3InstantiateModelExchange (p : option nat) (accepts location : bool) : M Status :=
  let* s := loadSymbols3 p in                                                                     (* 263 *)
  instantiates p "fmi3InstantiateModelExchange" false accepts location s.                         (* 267-297 *)

(** FMI3InstantiateCoSimulation 300-373 *)
Definition FMI3InstantiateCoSimulation (p : option nat) (accepts location : bool) : M Status :=
  let* s := loadSymbols3 p in
  match s with
  | OK => instantiates p "fmi3InstantiateCoSimulation" false accepts location OK
  | _ => ret Fatal                                                                                (* 312-314 *)
  end.

(** FMI3InstantiateScheduledExecution 375-440 *)
Definition FMI3InstantiateScheduledExecution (p : option nat) (accepts location : bool) : M Status :=
  let* s := loadSymbols3 p in
  match s with
  | OK => instantiates p "fmi3InstantiateScheduledExecution" false accepts location OK
  | _ => ret Error                                                                                (* 387-389 *)
  end.

Definition instantiate (p : option nat) (k : Kind) (accepts location : bool) : M Status :=
  match k with
  | Me2 | Cs2 => FMI2Instantiate p k accepts location
  | Me3 => FMI3InstantiateModelExchange p accepts location
  | Cs3 => FMI3InstantiateCoSimulation p accepts location
  | Se3 => FMI3InstantiateScheduledExecution p accepts location
  end.

(** FMI2FreeInstance 247-258: component keeps its value. *)
Definition FMI2FreeInstance (p : option nat) : M unit :=
  match p with
  | None => ret tt
  | Some _ =>
      let* e := instance_at p in
      calls (i_f2 (snd e)) "fmi2FreeInstance" ;;;
      freeModelInstance (i_comp (snd e))
  end.

(** FMI3FreeInstance 442-457 *)
Definition FMI3FreeInstance (p : option nat) : M unit :=
  match p with
  | None => ret tt                                                                                (* 444-446: FMIError *)
  | Some _ =>
      let* e := instance_at p in
      calls (i_f3 (snd e)) "fmi3FreeInstance" ;;;
      freeModelInstance (i_comp (snd e)) ;;;
      write (fst e) (BImp (set_comp (snd e) None))                                                (* 450 *)
  end.

Definition two (k : Kind) : bool := match k with Me2 | Cs2 => true | _ => false end.
Definition release (k : Kind) (p : option nat) : M unit :=
  if two k then FMI2FreeInstance p else FMI3FreeInstance p.

(** Any other function of src/FMI2.c and src/FMI3.c: the call through the table with the component, and the log
    (CALL, CALL_ARGS, CALL_ARRAY, FMI2.c 62-98, FMI3.c 54-90; written out for some functions).  fmi2GetVersion,
    fmi2GetTypesPlatform and fmi3GetVersion take no component; here they do.  FMI2SetDebugLogging 126 and
    FMI3SetDebugLogging 113 write with the format "loggingOn=%d, nCategories=%zu" but without the two arguments. *)
Definition unformatted (f : string) : bool := String.eqb f "fmi2SetDebugLogging" || String.eqb f "fmi3SetDebugLogging".
Definition wrapper (k : Kind) (p : option nat) (f : string) : M unit :=
  let* e := instance_at p in
  calls (if two k then i_f2 (snd e) else i_f3 (snd e)) f ;;;
  let* c := look (i_comp (snd e)) in
  match c with
  | BComp _ _ _ => if i_logf (snd e) && unformatted f then ubM else logs (snd e)
  | _ => ubM
  end.

(** ** What an importer does with any number of instances *)

Inductive LOp :=
| LCreate (logm logf : bool)
| LLoad (p : option nat)
| LInstantiate (p : option nat) (k : Kind) (accepts location : bool)
| LCall (p : option nat) (k : Kind) (f : string)
| LRelease (p : option nat) (k : Kind)
| LFree (p : option nat).
Inductive LOut := LPointer (p : option nat) | LStatus (s : Status) | LNothing.

Definition lexec (op : LOp) : M LOut :=
  match op with
  | LCreate m f => let* p := FMICreateInstance m f in ret (LPointer p)
  | LLoad p => let* s := FMILoadPlatformBinary p in ret (LStatus s)
  | LInstantiate p k a l => let* s := instantiate p k a l in ret (LStatus s)
  | LCall p k f => wrapper k p f ;;; ret LNothing
  | LRelease p k => release k p ;;; ret LNothing
  | LFree p => FMIFreeInstance p ;;; ret LNothing
  end.

(** ** examples/util.h *)

(** The globals of util.h 78-81. *)
Record Globals := mkG { g_status : Status; g_out : option nat; g_S : option nat; g_log : option nat }.

(** setUp 194-222.  [out]: OUTPUT_FILE is defined (jacobian.c writes none); LOG_FILE always is. *)
Definition setUp (out : bool) : M Globals :=
  let* o := (if out then request O SFile BFile else ret None) in                                  (* 197 *)
  match o, out with
  | None, true => ret (mkG Error None None None)                                                  (* 199-202 *)
  | _, _ =>
      let* l := request O SFile BFile in                                                          (* 206 *)
      match l with
      | None => ret (mkG Error o None None)                                                       (* 208-211 *)
      | Some _ =>
          let* p := FMICreateInstance true true in                                                (* 214 *)
          match p with
          | None => ret (mkG Error o None l)                                                      (* 216-219 *)
          | Some _ => let* s := FMILoadPlatformBinary p in ret (mkG s o p l)                      (* 221 *)
          end
      end
  end.

Definition below (s t : Status) : bool := Nat.ltb (status_num s) (status_num t).

(** FMI2Terminate, FMI3Terminate; the FMU answers [t]. *)
Definition terminate (k : Kind) (p : option nat) (t : Status) : M Status :=
  let* e := instance_at p in
  calls (if two k then i_f2 (snd e) else i_f3 (snd e)) (if two k then "fmi2Terminate" else "fmi3Terminate")%string ;;;
  ret t.

(** tearDown 224-266 *)
Definition tearDown (k : Kind) (t : Status) (g : Globals) : M Status :=
  let* s := match g_S g with
            | None => ret (g_status g)
            | Some _ =>
                let* s := (if below (g_status g) Error
                           then let* ts := terminate k (g_S g) t in ret (smax (g_status g) ts)    (* 228-240 *)
                           else ret (g_status g)) in
                (if below s Fatal then release k (g_S g) else ret tt) ;;;                         (* 242-252 *)
                FMIFreeInstance (g_S g) ;;;                                                       (* 254 *)
                ret s
            end in
  fclose (g_out g) ;;;                                                                            (* 258-260 *)
  fclose (g_log g) ;;;                                                                            (* 262-264 *)
  ret s.

(** The frame of every example program: [CALL(setUp())], [CALL(FMI*Instantiate*(S, ...))], the
    simulation, which ends with the status [body], and tearDown.  CALL: util.h 45. *)
Definition program (k : Kind) (out accepts location : bool) (body t : Status) : M Status :=
  let* g := setUp out in
  match g_status g with
  | OK =>
      let* s := instantiate (g_S g) k accepts location in
      tearDown k t (mkG (match s with OK => body | _ => s end) (g_out g) (g_S g) (g_log g))
  | _ => tearDown k t g
  end.

(** ** examples/import_shared_library.c 24-82 (not Windows) *)

(** main; [accepts]: the FMU in the library accepts the token and Model Exchange.  The name is a literal.  The
    result: EXIT_SUCCESS.  Nothing happens between instantiation and release ("simulation..." 73). *)
Definition import_shared_library (accepts : bool) : M bool :=
  let* h := request O SLibrary BLibrary in                                                        (* 31 *)
  match h with
  | None => ret false                                                                             (* 34-36 *)
  | Some _ =>
      let* me := dlsym h "fmi3InstantiateModelExchange" in                                        (* 42 *)
      let* fr := dlsym h "fmi3FreeInstance" in                                                    (* 49 *)
      if negb me || negb fr then ret false else                                                   (* 54-56 *)
      let* m := createModelInstance "fmi3InstantiateModelExchange" (Some 0) accepts false in      (* 58-65 *)
      match m with
      | None => ret false                                                                         (* 68-70 *)
      | Some _ => freeModelInstance m ;;; dlclose h ;;; ret true                                  (* 74-81 *)
      end
  end.

(** ** examples/import_static_library.c 16-31: the functions of VanDerPol are linked into the program.  Line 30 compares the
    pointer with NULL after its memory was freed, which is taken to give what it gave before. *)
Definition import_static_library (accepts : bool) : M bool :=
  let* m := createModelInstance "fmi3InstantiateModelExchange" (Some 0) accepts false in          (* 18-25 *)
  freeModelInstance m ;;;                                                                         (* 29 *)
  ret (match m with Some _ => true | None => false end).                                          (* 30 *)
End Life.

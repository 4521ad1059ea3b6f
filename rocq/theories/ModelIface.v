(** ModelIface.v -- what an FMU's config.h/model.c provide to the framework, and
    the macros and default implementations available to them.

    Sources: include/model.h, src/cosimulation.c, src/fmi3Functions.c. *)

From Coq Require Import List NArith ZArith Bool Arith.
From Verif Require Import Base Instance.
Import ListNotations.
Set Implicit Arguments.

(** A model function sees the file system, reads the framework fields and may
    change the [Mut] part; it may emit callback events. *)
Definition MF (F D X : Type) : Type := Env -> Ctl F -> SW (Event F) (Mut F D) X.

(** Result of a get function: status, the caller's array, the index. *)
Definition GetRes (T : Type) : Type := (Status * Buf T * nat)%type.
(** Result of a set function: status and index. *)
Definition SetRes : Type := (Status * nat)%type.

Section Combinators.
  Context {F D : Type} {NF : Num F}.

  Definition mret {X} (a : X) : MF F D X := fun _ _ => ret a.
  Definition mbind {X Y} (m : MF F D X) (k : X -> MF F D Y) : MF F D Y :=
    fun e c => bind (m e c) (fun a => k a e c).
  Definition mub {X} : MF F D X := fun _ _ => ubM.
  Definition mctl : MF F D (Ctl F) := fun _ c => ret c.
  Definition menv : MF F D Env := fun e _ => ret e.
  Definition mget : MF F D (Mut F D) := fun _ _ => getS.
  Definition mmod (f : Mut F D -> Mut F D) : MF F D unit := fun _ _ => modS f.
  Definition mdata : MF F D D := fun _ _ s => Done (data s, s, []).
  Definition mmodd (f : D -> D) : MF F D unit := mmod (fun s => set_data (f (data s)) s).
  Definition mtell (e : Event F) : MF F D unit := fun _ _ => tell e.
  Definition mrd {T} (b : Buf T) (i : nat) : MF F D T := fun _ _ => rd b i.
  Definition mwr {T} (b : Buf T) (i : nat) (v : T) : MF F D (Buf T) := fun _ _ => wr b i v.

  (** src/cosimulation.c:304-322 with 269-302 (logMessage): the logger is called only
      if there is one and the category is enabled. [logEvent] (304-312) is never
      called by any FMU or by the framework. *)
  Definition mlogError : MF F D unit :=
    fun _ c => if logErrors c && hasLogger c then tell (ELog Error CatLogStatusError) else ret tt.

  (** [logError(...); return Error;] *)
  Definition failGet {T} (values : Buf T) (index : nat) : MF F D (GetRes T) :=
    mbind mlogError (fun _ => mret (Error, values, index)).
  Definition failSet (index : nat) : MF F D SetRes :=
    mbind mlogError (fun _ => mret (Error, index)).
  Definition fail : MF F D Status := mbind mlogError (fun _ => mret Error).

  (** include/model.h:255-262 [ASSERT_NVALUES(N)] *)
  Definition nvalues_ok (index N nValues : nat) : bool := Nat.leb (index + N) nValues.

  (** [ASSERT_NVALUES(1); values[( *index)++] = v; return OK;] *)
  Definition put1 {T} (values : Buf T) (nValues index : nat) (v : T) : MF F D (GetRes T) :=
    if nvalues_ok index 1 nValues
    then mbind (mwr values index v) (fun values' => mret (OK, values', S index))
    else failGet values index.

  (** [values[( *index)++] = l[0]; values[( *index)++] = l[1]; ...] *)
  Fixpoint putl {T} (values : Buf T) (index : nat) (l : list T) : MF F D (GetRes T) :=
    match l with
    | [] => mret (OK, values, index)
    | v :: l' => mbind (mwr values index v) (fun values' => putl values' (S index) l')
    end.

  (** [x = values[( *index)++]] for [n] consecutive elements. *)
  Fixpoint takel {T} (values : Buf T) (index n : nat) : MF F D (list T) :=
    match n with
    | O => mret []
    | S n' => mbind (mrd values index) (fun v =>
              mbind (takel values (S index) n') (fun l => mret (v :: l)))
    end.

  (** Write consecutive elements [l] to the array [b] from position [i]. *)
  Fixpoint writel {T} (b : Buf T) (i : nat) (l : list T) : MF F D (Buf T) :=
    match l with
    | [] => mret b
    | v :: l' => mbind (mwr b i v) (fun b' => writel b' (S i) l')
    end.

  (** src/cosimulation.c:324-331 GET_NOT_ALLOWED (functions 333-398) and
      407-414 SET_NOT_ALLOWED (functions 416-486) *)
  Definition get_not_allowed {T} (vr : N) (values : Buf T) (nValues index : nat) : MF F D (GetRes T) :=
    failGet values index.
  Definition set_not_allowed {T} (vr : N) (values : Buf T) (nValues index : nat) : MF F D SetRes :=
    failSet index.
End Combinators.

Declare Scope mf_scope.
Delimit Scope mf_scope with mf.
Notation "'do' x '<-' m 'in' k" := (mbind m (fun x => k))
  (at level 200, x pattern, m at level 100, k at level 200, right associativity) : mf_scope.
Notation "m '>>' k" := (mbind m (fun _ => k))
  (at level 199, right associativity) : mf_scope.

(** Patterns shared by the model.c files. *)
Section Patterns.
  Context {F D : Type} {NF : Num F}.
  Open Scope mf_scope.

  (** [ASSERT_NOT_NULL2(values);] (include/model.h:248-252) in a get or set function *)
  Definition nnGet {T} (values : Buf T) (index : nat) (k : MF F D (GetRes T)) : MF F D (GetRes T) :=
    match values with None => failGet values index | Some _ => k end.
  Definition nnSet {T} (values : Buf T) (index : nat) (k : MF F D SetRes) : MF F D SetRes :=
    match values with None => failSet index | Some _ => k end.

  (** [ASSERT_NVALUES(1); M(x) = values[( *index)++];] *)
  Definition take1 {T} (values : Buf T) (nValues index : nat) (f : T -> D -> D) : MF F D SetRes :=
    if nvalues_ok index 1 nValues
    then do v <- mrd values index in mmodd (f v) >> mret (OK, S index)
    else failSet index.

  (** [comp->isDirtyValues = true; return OK;] after the switch of a set function *)
  Definition thenDirty (m : MF F D SetRes) : MF F D SetRes :=
    do r <- m in
    match fst r with
    | OK => mmod (set_dirty true) >> mret r
    | _ => mret r
    end.

  (** [ASSERT_NOT_NULL2(x); ASSERT_SIZE_T(nx, n);] (include/model.h:248-268) *)
  Definition arrGet (x : Buf F) (nx n : nat) (k : MF F D (Status * Buf F)) : MF F D (Status * Buf F) :=
    match x with
    | None => mlogError >> mret (Error, x)
    | Some _ => if Nat.eqb nx n then k else mlogError >> mret (Error, x)
    end.
  Definition arrSet (x : Buf F) (nx n : nat) (k : MF F D Status) : MF F D Status :=
    match x with
    | None => fail
    | Some _ => if Nat.eqb nx n then k else fail
    end.
End Patterns.

(** Tests on the state used by set functions. *)
Definition inModes (l : list ModelState) (s : ModelState) : bool := existsb (ModelState_eqb s) l.
Definition isME (t : InterfaceType) : bool := match t with ModelExchange => true | _ => false end.

(** ** The FMU. *)
Record Model (F : Type) := mkModel {
  md : Type;                                   (* ModelData, */config.h *)
  md0 : md;                                    (* all-zero contents: calloc, cosimulation.c:69 *)
  m_token : bytes;                             (* INSTANTIATION_TOKEN *)
  m_modelExchange : bool;                      (* MODEL_EXCHANGE defined *)
  m_scheduled : bool;                          (* SCHEDULED_CO_SIMULATION defined *)
  m_eventUpdate : bool;                        (* EVENT_UPDATE defined *)
  m_outputDerivative : bool;                   (* GET_OUTPUT_DERIVATIVE defined *)
  m_maxX : nat;                                (* MAX_CONTINUOUS_STATES, 0 if undefined *)
  m_maxZ : nat;                                (* MAX_EVENT_INDICATORS, 0 if undefined *)
  m_step : F;                                  (* FIXED_SOLVER_STEP *)

  m_setStartValues : MF F md Status;
  m_calculateValues : MF F md Status;
  m_get : forall t : VType, N -> Buf (val F t) -> nat -> nat -> MF F md (GetRes (val F t));
  m_set : forall t : VType, N -> Buf (val F t) -> nat -> nat -> MF F md SetRes;
  m_getBinary : N -> Buf nat -> Buf bytes -> nat -> nat -> MF F md (Status * Buf nat * Buf bytes * nat);
  m_setBinary : N -> Buf nat -> Buf (option bytes) -> nat -> nat -> MF F md SetRes;
  m_activateClock : N -> MF F md Status;
  m_getClock : N -> MF F md (Status * option bool);         (* written value *)
  m_getInterval : N -> MF F md (Status * option F * option Z);
  m_activateModelPartition : N -> F -> MF F md Status;
  m_nz : Mut F md -> nat;                      (* getNumberOfEventIndicators *)
  m_nx : Mut F md -> nat;                      (* getNumberOfContinuousStates *)
  m_getContinuousStates : Buf F -> nat -> MF F md (Status * Buf F);
  m_getNominals : Buf F -> nat -> MF F md (Status * Buf F);
  m_setContinuousStates : Buf F -> nat -> MF F md Status;
  m_getDerivatives : Buf F -> nat -> MF F md (Status * Buf F);
  m_getEventIndicators : Buf F -> nat -> MF F md (Status * Buf F);
  m_getOutputDerivative : bool -> N -> Z -> MF F md (Status * option F);  (* bool: value pointer is NULL *)
  m_getPartialDerivative : N -> N -> MF F md (Status * F);  (* the out variable is initialised to 0 *)
  m_eventUpdateF : MF F md Status
}.

(** ** Defaults for functions an FMU does not define (src/cosimulation.c). *)
Section Defaults.
  Context {F D : Type} {NF : Num F}.
  Open Scope mf_scope.

  (** 400-405 *)
  Definition getBinary_default (vr : N) (sizes : Buf nat) (values : Buf bytes) (nValues index : nat)
    : MF F D (Status * Buf nat * Buf bytes * nat) :=
    mlogError >> mret (Error, sizes, values, index).
  (** 488-493 *)
  Definition setBinary_default (vr : N) (sizes : Buf nat) (values : Buf (option bytes)) (nValues index : nat)
    : MF F D SetRes := failSet index.
  (** 501-527: all four functions assert nx = 0 and do nothing *)
  Definition states_default (x : Buf F) (nx : nat) : MF F D (Status * Buf F) :=
    if Nat.eqb nx 0 then mret (OK, x) else mlogError >> mret (Error, x).
  Definition setStates_default (x : Buf F) (nx : nat) : MF F D Status :=
    if Nat.eqb nx 0 then mret OK else fail.
  (** 536-541 *)
  Definition indicators_default (z : Buf F) (nz : nat) : MF F D (Status * Buf F) :=
    if Nat.eqb nz 0 then mret (OK, z) else mlogError >> mret (Error, z).
  (** 545-552 *)
  Definition partial_default (unknown known : N) : MF F D (Status * F) :=
    mlogError >> mret (Error, nzero).
  (** 556-560 *)
  Definition activateClock_default (vr : N) : MF F D Status := mret Error.
  (** 564-569 *)
  Definition getClock_default (vr : N) : MF F D (Status * option bool) := mret (Error, None).
  (** 573-579 *)
  Definition getInterval_default (vr : N) : MF F D (Status * option F * option Z) := mret (Error, None, None).
  (** 583-588 *)
  Definition activate_default (vr : N) (t : F) : MF F D Status := mret Error.
  (** Not defined by the FMU and not called: there is no default for
      getOutputDerivative and eventUpdate in the code. *)
  Definition outputDerivative_absent (isnull : bool) (vr : N) (order : Z) : MF F D (Status * option F) := mub.
  Definition eventUpdate_absent : MF F D Status := mub.
End Defaults.

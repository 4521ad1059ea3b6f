(** Base.v -- outcomes, the state/writer monad, statuses, modes, arithmetic.

    Sources: include/model.h, src/cosimulation.c of modelica/Reference-FMUs. *)

From Coq Require Import List NArith ZArith Bool Arith.
From Coq Require Import Init.Byte.
Import ListNotations.

Set Implicit Arguments.

(** ** Outcomes.
    [UB] is undefined behaviour of the C program (NULL dereference, access outside
    an array, signed overflow, use of a freed object).  [NoFuel] marks that the
    given fuel was not enough for a [while (true)] loop of the code; it is never a
    result of the C program. *)
Inductive res (A : Type) : Type :=
| Done (a : A)
| UB
| NoFuel.
Arguments Done {A} a.
Arguments UB {A}.
Arguments NoFuel {A}.

(** ** State + writer monad: [E] = events emitted (callback invocations). *)
Definition SW (E S X : Type) : Type := S -> res (X * S * list E).

Section Monad.
  Context {E S : Type}.
  Definition ret {X} (a : X) : SW E S X := fun s => Done (a, s, []).
  Definition bind {X Y} (m : SW E S X) (k : X -> SW E S Y) : SW E S Y :=
    fun s => match m s with
             | Done (a, s', t) =>
                 match k a s' with
                 | Done (b, s'', t') => Done (b, s'', t ++ t')
                 | UB => UB
                 | NoFuel => NoFuel
                 end
             | UB => UB
             | NoFuel => NoFuel
             end.
  Definition ubM {X} : SW E S X := fun _ => UB.
  Definition nofuelM {X} : SW E S X := fun _ => NoFuel.
  Definition getS : SW E S S := fun s => Done (s, s, []).
  Definition putS (s : S) : SW E S unit := fun _ => Done (tt, s, []).
  Definition modS (f : S -> S) : SW E S unit := fun s => Done (tt, f s, []).
  Definition tell (e : E) : SW E S unit := fun s => Done (tt, s, [e]).
End Monad.

Declare Scope sw_scope.
Delimit Scope sw_scope with sw.
Notation "'let*' x ':=' m 'in' k" := (bind m (fun x => k))
  (at level 200, x pattern, m at level 100, k at level 200, right associativity) : sw_scope.
Notation "m ';;;' k" := (bind m (fun _ => k))
  (at level 199, right associativity) : sw_scope.
Open Scope sw_scope.

(** ** Status, include/model.h:71-78 (numbered 0..5 in this order). *)
Inductive Status := OK | Warning | Discard | Error | Fatal | Pending.

Definition status_num (s : Status) : nat :=
  match s with OK => 0 | Warning => 1 | Discard => 2 | Error => 3 | Fatal => 4 | Pending => 5 end.

(** [if (s > status) status = s;] of the CALL macros. *)
Definition smax (status s : Status) : Status :=
  if Nat.ltb (status_num status) (status_num s) then s else status.

(** ** ModelState.  The enumerations of include/model.h:28-44 (FMI 2) and 48-61
    (FMI 3) are merged into one type; the numeric values (single bits) are given
    by [bit2] and [bit3] and are what the mode masks of the code are made of. *)
Inductive ModelState :=
| StartAndEnd | Instantiated | InitializationMode | EventMode | ContinuousTimeMode
| Terminated
(* FMI 2 only *)
| StepComplete | StepInProgress | StepFailed | StepCanceled
(* FMI 3 only *)
| ConfigurationMode | StepMode | ClockActivationMode | StepDiscarded
| ReconfigurationMode | IntermediateUpdateMode.

(** include/model.h:28-44; FMI 3 names do not exist in the FMI 2 build. *)
Definition bit2 (s : ModelState) : N :=
  match s with
  | StartAndEnd => 2^0 | Instantiated => 2^1 | InitializationMode => 2^2
  | EventMode => 2^3 | ContinuousTimeMode => 2^4
  | StepComplete => 2^5 | StepInProgress => 2^6 | StepFailed => 2^7 | StepCanceled => 2^8
  | Terminated => 2^9
  | _ => 0
  end%N.

(** include/model.h:48-61. *)
Definition bit3 (s : ModelState) : N :=
  match s with
  | StartAndEnd => 2^0 | ConfigurationMode => 2^1 | Instantiated => 2^2
  | InitializationMode => 2^3 | EventMode => 2^4 | ContinuousTimeMode => 2^5
  | StepMode => 2^6 | ClockActivationMode => 2^7 | StepDiscarded => 2^8
  | ReconfigurationMode => 2^9 | IntermediateUpdateMode => 2^10 | Terminated => 2^11
  | _ => 0
  end%N.

Definition ModelState_eqb (a b : ModelState) : bool :=
  match a, b with
  | StartAndEnd, StartAndEnd | Instantiated, Instantiated
  | InitializationMode, InitializationMode | EventMode, EventMode
  | ContinuousTimeMode, ContinuousTimeMode | Terminated, Terminated
  | StepComplete, StepComplete | StepInProgress, StepInProgress
  | StepFailed, StepFailed | StepCanceled, StepCanceled
  | ConfigurationMode, ConfigurationMode | StepMode, StepMode
  | ClockActivationMode, ClockActivationMode | StepDiscarded, StepDiscarded
  | ReconfigurationMode, ReconfigurationMode
  | IntermediateUpdateMode, IntermediateUpdateMode => true
  | _, _ => false
  end.

(** include/model.h:65-69 *)
Inductive InterfaceType := ModelExchange | CoSimulation | ScheduledExecution.

(** ** Bytes and C strings.  A [char *] is [None] (NULL) or the bytes of the
    object it points to, after which there is a NUL.  The string C sees ends at
    the first NUL byte. *)
Definition bytes := list byte.
Definition byte_eqb (a b : byte) : bool := N.eqb (Byte.to_N a) (Byte.to_N b).

Fixpoint cstr (s : bytes) : bytes :=
  match s with
  | [] => []
  | b :: s' => if byte_eqb b x00 then [] else b :: cstr s'
  end.
Definition strlen (s : bytes) : nat := length (cstr s).

Fixpoint bytes_eqb (a b : bytes) : bool :=
  match a, b with
  | [], [] => true
  | x :: a', y :: b' => byte_eqb x y && bytes_eqb a' b'
  | _, _ => false
  end.
(** [strcmp(a, b) == 0] *)
Definition streq (a b : bytes) : bool := bytes_eqb (cstr a) (cstr b).

(** ** Caller memory: [None] is NULL, [Some l] an object of exactly [length l]
    elements.  Accesses outside are [UB]. *)
Definition Buf (T : Type) := option (list T).

Fixpoint upd {T} (l : list T) (i : nat) (v : T) : list T :=
  match l, i with
  | [], _ => []
  | _ :: l', O => v :: l'
  | a :: l', S i' => a :: upd l' i' v
  end.

Definition rd {E S T} (b : Buf T) (i : nat) : SW E S T :=
  match b with
  | Some l => match nth_error l i with Some v => ret v | None => ubM end
  | None => ubM
  end.
Definition wr {E S T} (b : Buf T) (i : nat) (v : T) : SW E S (Buf T) :=
  match b with
  | Some l => if Nat.ltb i (length l) then ret (Some (upd l i v)) else ubM
  | None => ubM
  end.
Definition isNull {T} (b : option T) : bool := match b with None => true | Some _ => false end.

(** ** Arithmetic on [double].  The model is generic in the number type; the
    fields below are the operations the C code uses on doubles. *)
Class Num (F : Type) := {
  nadd : F -> F -> F;
  nsub : F -> F -> F;
  nmul : F -> F -> F;
  nopp : F -> F;
  nle  : F -> F -> bool;          (* a <= b *)
  nlt  : F -> F -> bool;          (* a <  b *)
  nlit : Z -> Z -> F;             (* decimal literal m * 10^e *)
  nofN : N -> F;                  (* conversion of uint64_t *)
  ninf : F;                       (* INFINITY *)
  ndblmin : F;                    (* DBL_MIN *)
  ntrunc : F -> option Z          (* conversion to integer; None: NaN or infinite *)
}.

Definition nzero {F} {_ : Num F} : F := nlit 0 0.
Definition none_ {F} {_ : Num F} : F := nlit 1 0.

(** src/cosimulation.c:173-190 *)
Definition EPSILON {F} {_ : Num F} : F := nlit 1 (-5).                 (* 173 *)
Definition fmiAbs {F} {_ : Num F} (v : F) : F := if nle nzero v then v else nopp v.  (* 175-177 *)
Definition fmiMax {F} {_ : Num F} (a b : F) : F := if nlt a b then b else a.         (* 179-181 *)
Definition isClose {F} {_ : Num F} (a b : F) : bool :=                                (* 183-190 *)
  if nle (fmiAbs (nsub a b)) EPSILON then true
  else nle (fmiAbs (nsub a b)) (nmul EPSILON (fmiMax (fmiAbs a) (fmiAbs b))).

(** [int] range (used for signed-overflow checks). *)
Definition INT_MIN : Z := (- 2^31)%Z.
Definition INT_MAX : Z := (2^31 - 1)%Z.
Definition in_int (z : Z) : bool := Z.leb INT_MIN z && Z.leb z INT_MAX.

(** ** Variable types of FMI 3 (Binary and Clock have their own functions). *)
Inductive VType :=
| TFloat32 | TFloat64 | TInt8 | TUInt8 | TInt16 | TUInt16 | TInt32 | TUInt32
| TInt64 | TUInt64 | TBoolean | TString.

Definition VType_eq_dec (a b : VType) : {a = b} + {a <> b}.
Proof. decide equality. Defined.

(** Values.  [float]s are only copied by the code, never computed with: they are
    raw 32-bit patterns.  Strings are their contents (the C code hands out pointers
    into the instance; the value is the content at the time of the call). *)
Definition val (F : Type) (t : VType) : Type :=
  match t with
  | TFloat64 => F
  | TFloat32 => N
  | TInt8 | TInt16 | TInt32 | TInt64 => Z
  | TUInt8 | TUInt16 | TUInt32 | TUInt64 => N
  | TBoolean => bool
  | TString => option bytes
  end.

(** ** Callback invocations (the observable effects besides return values).
    Message texts are not modelled. *)
Inductive Category := CatError | CatLogEvents | CatLogStatusError.

Inductive Event (F : Type) :=
| ELog (s : Status) (c : Category)       (* the logger callback *)
| EIntermediateUpdate (time : F)
| EClockUpdate
| ELock
| EUnlock.
Arguments ELog {F} s c.
Arguments EClockUpdate {F}.
Arguments ELock {F}.
Arguments EUnlock {F}.

(** ** The file system as seen during one API call: content of the first [fgetc]
    of a path opened with [fopen], as [char] converted to [int]; [None] if the file
    cannot be opened. *)
Record Env := { env_file : bytes -> option Z }.

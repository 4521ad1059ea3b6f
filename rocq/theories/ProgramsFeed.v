(** ProgramsFeed.v -- examples/Feedthrough.c (the start values, the inputs and the rows of the output file for the FMU
    Feedthrough) and the example programs that use it: simulate_fmi3_cs.c, simulate_fmi2_cs.c and simulate_fmi3_me.c
    compiled for Feedthrough.  Programs.v and Programs2.v hold the same programs for the other FMUs, which have no inputs;
    see there for the simplifications.  A row is the values read, not their text.

    [narrow] is the conversion of a double to a float (the bits of the result): an initialiser of type fmi3Float32. *)

From Coq Require Import List NArith ZArith Bool Arith.
From Verif Require Import Base Instance ModelIface Core Fmi3 Fmi2 Api Fmus.
Import ListNotations.
Set Implicit Arguments.

(** "FMI is awesome!", "FMI is still awesome!", "foo", "bar" (Feedthrough.c 110, 171-176) *)
Definition s_awesome : bytes :=
  [Byte.x46; Byte.x4d; Byte.x49; Byte.x20; Byte.x69; Byte.x73; Byte.x20; Byte.x61; Byte.x77; Byte.x65; Byte.x73; Byte.x6f;
   Byte.x6d; Byte.x65; Byte.x21].
Definition s_still_awesome : bytes :=
  [Byte.x46; Byte.x4d; Byte.x49; Byte.x20; Byte.x69; Byte.x73; Byte.x20; Byte.x73; Byte.x74; Byte.x69; Byte.x6c; Byte.x6c;
   Byte.x20; Byte.x61; Byte.x77; Byte.x65; Byte.x73; Byte.x6f; Byte.x6d; Byte.x65; Byte.x21].
Definition s_foo : bytes := [Byte.x66; Byte.x6f; Byte.x6f].
Definition s_bar : bytes := [Byte.x62; Byte.x61; Byte.x72].

(** ** Statements of a program over an API *)
Section Statements.
  Context {F : Type} {NF : Num F} {D Op : Type}.
  Variable exec : Op -> Sys F D -> res (Status * Out F D * Sys F D * list (Event F)).

  (** A row of the output file: the time and what the calls of recordVariables read. *)
  Definition FRow : Type := F * list (Out F D).
  (** [inl x]: goes on; [inr st]: goto TERMINATE with this [status] *)
  Definition FProg (X : Type) : Type := SW FRow (Sys F D) (X + Status).
  Definition fret {X} (x : X) : FProg X := ret (inl x).
  Definition fbind {X Z} (p : FProg X) (k : X -> FProg Z) : FProg Z :=
    bind p (fun r => match r with inl x => k x | inr st => ret (inr st) end).
  Definition ffinish {X} : FProg X := ret (inr OK).
  (** util.h 45: CALL(f) with an API function *)
  Definition FCALL (o : Op) : FProg (Out F D) := fun s =>
    match exec o s with
    | Done (st, out, s', _) => Done (match st with OK => inl out | _ => inr st end, s', [])
    | UB => UB
    | NoFuel => NoFuel
    end.
  (** A sequence of CALLs.  (That CALL in a function called by CALL leaves both, util.h 45.) *)
  Fixpoint FCALLS (l : list Op) : FProg (list (Out F D)) :=
    match l with
    | [] => fret []
    | o :: l => fbind (FCALL o) (fun x => fbind (FCALLS l) (fun r => fret (x :: r)))
    end.
  (** recordVariables, Feedthrough.c 186-337: the row is written after the last call *)
  Definition frecord (l : list Op) (time : F) : FProg unit :=
    fbind (FCALLS l) (fun row => fun s => Done (inl tt, s, [(time, row)])).
  (** tearDown, util.h 224-267; [terminate]: FMI2Terminate, FMI3Terminate *)
  Definition ftearDown (terminate : Op) (st : Status) (s : Sys F D) (rows : list FRow)
    : res (Status * list FRow * option (Sys F D)) :=
    if Nat.ltb (status_num st) (status_num Error) then
      match exec terminate s with
      | Done (st', _, s', _) => Done (smax st st', rows, Some s')
      | UB => UB
      | NoFuel => NoFuel
      end
    else Done (st, rows, Some s).
  Definition fprogram (terminate : Op) (new : res (option (Inst F D) * list (Event F))) (body : FProg unit)
    : res (Status * list FRow * option (Sys F D)) :=
    match new with
    | Done (Some i, _) =>
        match body (mkSys i []) with
        | Done (r, s, rows) => ftearDown terminate (match r with inl _ => OK | inr st => st end) s rows
        | UB => UB
        | NoFuel => NoFuel
        end
    | Done (None, _) => Done (Error, [], None)
    | UB => UB
    | NoFuel => NoFuel
    end.
End Statements.
Arguments FRow {F} D.
Arguments FProg {F} D X.
Arguments ffinish {F D X}.
Arguments fret {F D X}.
Notation "'run' x '<-' p 'in' k" := (fbind p (fun x => k)) (at level 200, x pattern, p at level 100, k at level 200).
Notation "p '>>>' k" := (fbind p (fun _ => k)) (at level 199, right associativity).

(** setUp, util.h 214: "instance1" *)
Definition feed_name : option bytes :=
  Some [Byte.x69; Byte.x6e; Byte.x73; Byte.x74; Byte.x61; Byte.x6e; Byte.x63; Byte.x65; Byte.x31].

(** ** The signals, Feedthrough.c *)
Section Signals.
  Context {F : Type} {NF : Num F}.
  Definition half : F := nlit 5 (-1).
  Definition one : F := nlit 1 0.
  Definition two : F := nlit 2 0.
  Definition onehalf : F := nlit 15 (-1).
  (** [a == b] of doubles *)
  Definition ceq (a b : F) : bool := nle a b && nle b a.
  (** 21-31 nextInputEventTime *)
  Definition nextInputEventTime (time : F) : F :=
    if nle time half then half else if nle time one then one else if nle time onehalf then onehalf else ninf.
  (** 60-68 *)
  Definition continuous_input (time : F) (afterEvent : bool) : F :=
    if nlt time half then nzero
    else if ceq time half then (if afterEvent then two else nzero)
    else if nle half time && nlt time one then nsub two (nmul two (nsub time half))
    else one.
  (** 95; 115, 134: time < 1.5 ? 0.0 : -1.0 *)
  Definition before_step (time : F) : bool := nlt time one.
  Definition tunable_input (time : F) : F := if nlt time onehalf then nzero else nopp one.
End Signals.

(** ** FMI 3 *)
Section Feed3.
  Context {F : Type} {NF : Num F} (szof : N) (fuel : nat) (env : Env) (narrow : F -> N).
  Notation m := (model_of (F := F) FMI3 Feedthrough).
  Notation D := (md m).
  Notation Op := (Op3 F D).
  Notation exec := (exec3 m szof fuel env).
  Notation CALL := (FCALL exec).
  Notation CALLS := (FCALLS exec).

  Definition fset (t : VType) (vr : N) (v : val F t) : Op := O3Set t (Some [vr]) 1 (Some [v]) 1.
  (** 33-54 applyStartValues: Float64_fixed_parameter *)
  Definition start3 : list Op := [fset TFloat64 5 one].
  (** 56-87 applyContinuousInputs *)
  Definition continuous3 (time : F) (afterEvent : bool) : list Op :=
    let value := continuous_input time afterEvent in
    [fset TFloat32 1 (narrow value); fset TFloat64 7 value].
  (** 130-182 applyDiscreteInputs; 1.0f has the bits 0x3f800000 *)
  Definition discrete3 (time : F) : list Op :=
    let b := before_step time in
    [fset TFloat32 3 (if b then 0%N else 1065353216%N);
     O3Set TFloat64 (Some [6; 9]%N) 2 (Some [tunable_input time; if b then nzero else one]) 2;
     fset TInt8 11 (if b then -128 else 127)%Z;
     fset TUInt8 13 (if b then 0 else 255)%N;
     fset TInt16 15 (if b then -32768 else 32767)%Z;
     fset TUInt16 17 (if b then 0 else 65535)%N;
     fset TInt32 19 (if b then -2147483648 else 2147483647)%Z;
     fset TUInt32 21 (if b then 0 else 4294967295)%N;
     fset TInt64 23 (if b then -9223372036854775808 else 9223372036854775807)%Z;
     fset TUInt64 25 (if b then 0 else 18446744073709551615)%N;
     fset TBoolean 27 (negb b);
     fset TString 29 (Some (if b then s_awesome else s_still_awesome));
     O3SetBinary (Some [31]%N) 1 (Some [3]) (Some [Some (if b then s_foo else s_bar)]) 1;
     fset TInt64 33 (if b then 1 else 2)%Z].
  (** 240-301 recordVariables *)
  Definition fget (t : VType) (zero : val F t) (vrs : list N) : Op :=
    O3Get t (Some vrs) (length vrs) (Some (repeat zero (length vrs))) (length vrs).
  Definition outputs3 : list Op :=
    [fget TFloat32 0%N [2; 4]%N; fget TFloat64 nzero [8; 10]%N; fget TInt8 0%Z [12]%N; fget TUInt8 0%N [14]%N;
     fget TInt16 0%Z [16]%N; fget TUInt16 0%N [18]%N; fget TInt32 0%Z [20]%N; fget TUInt32 0%N [22]%N;
     fget TInt64 0%Z [24; 34]%N; fget TUInt64 0%N [26]%N; fget TBoolean false [28]%N; fget TString None [30]%N;
     O3GetBinary (Some [32]%N) 1 (Some [0]) (Some [[]]) 1].
  Notation recordVariables := (frecord exec outputs3).

  Variables (S : N) (stop : F).
  (** simulate_fmi3_cs.c 30-49; [n] bounds the number of passes *)
  Fixpoint feed_loop3 (n : nat) (step : N) : FProg D unit :=
    match n with
    | O => nofuelM
    | Datatypes.S n =>
        let time := nmul (nofN step) (m_step m) in
        recordVariables time >>>
        CALLS (continuous3 time false) >>>
        CALLS (discrete3 time) >>>
        if nle stop time then fret tt else
        run out <- CALL (O3DoStep time (m_step m) true true true true) in
        match out with
        | ODoStep o => if (match o_terminateSimulation o with Some b => b | None => false end) then fret tt
                       else feed_loop3 n (N.modulo (step + 1) two64)
        | _ => ubM
        end
    end.
  (** simulate_fmi3_cs.c 12-49 *)
  Definition feed_cs3 (path : bytes) (n : nat) :=
    fprogram exec O3Terminate
      (fmi3InstantiateCoSimulation m env feed_name (Some (m_token m)) (Some path) false false false S true false)
      (CALLS start3 >>>
       CALL (O3EnterInitializationMode nzero true stop) >>>
       CALL O3ExitInitializationMode >>>
       feed_loop3 n 0).

  (** simulate_fmi3_me.c 68-82, 121-144; the FMU has no continuous states, so what the program does if their values
      or nominal values changed is compiled out (NX is 0).  Result: nextEventTimeDefined, nextEventTime. *)
  Fixpoint feed_iteration3 (n : nat) : FProg D (bool * F) :=
    match n with
    | O => nofuelM
    | Datatypes.S n =>
        run out <- CALL O3UpdateDiscreteStates in
        match out with
        | OEventInfo (Some e) =>
            if ei_terminateSimulation e then ffinish
            else if ei_discreteStatesNeedUpdate e then feed_iteration3 n
            else fret (ei_nextEventTimeDefined e, ei_nextEventTime e)
        | _ => ubM
        end
    end.
  (** simulate_fmi3_me.c 102-223; stateEvent stays false (NZ is 0) *)
  Fixpoint feed_me_loop3 (n : nat) (step : N) (time : F) (stepEvent ned : bool) (net : F) : FProg D unit :=
    match n with
    | O => nofuelM
    | Datatypes.S n =>
        let inputEvent := nle (nextInputEventTime time) time in
        let timeEvent := ned && nle net time in
        run r <-
          (if inputEvent || timeEvent || stepEvent then
             CALL O3EnterEventMode >>>
             (if inputEvent then CALLS (continuous3 time true) >>> CALLS (discrete3 time) else fret []) >>>
             run e <- feed_iteration3 n in
             CALL O3EnterContinuousTimeMode >>>
             recordVariables time >>>
             fret e
           else fret (ned, net)) in
        let '(ned, net) := r in
        if nle stop time then ffinish else
        let step := N.modulo (step + 1) two64 in
        let time := nmul (nofN step) (m_step m) in
        CALL (O3SetTime time) >>>
        CALLS (continuous3 time false) >>>
        run out <- CALL (O3CompletedIntegratorStep (Some tt) (Some tt)) in
        recordVariables time >>>
        match out with
        | OFlags (Some (stepEvent, terminate)) =>
            if terminate then fret tt else feed_me_loop3 n step time stepEvent ned net
        | _ => ubM
        end
    end.
  (** simulate_fmi3_me.c 46-223 *)
  Definition feed_me3 (path : bytes) (n : nat) :=
    fprogram exec O3Terminate
      (fmi3InstantiateModelExchange m env feed_name (Some (m_token m)) (Some path) false S true)
      (CALLS start3 >>>
       CALL (O3EnterInitializationMode nzero true stop) >>>
       CALLS (continuous3 nzero false) >>>
       CALLS (discrete3 nzero) >>>
       CALL O3ExitInitializationMode >>>
       run e <- feed_iteration3 n in
       CALL O3EnterContinuousTimeMode >>>
       recordVariables nzero >>>
       feed_me_loop3 n 0 nzero false (fst e) (snd e)).
End Feed3.

(** ** FMI 2 *)
Section Feed2.
  Context {F : Type} {NF : Num F} (szof : N) (fuel : nat) (env : Env).
  Notation m := (model_of (F := F) FMI2 Feedthrough).
  Notation D := (md m).
  Notation Op := (Op2 F D).
  Notation exec := (exec2 m szof fuel env).
  Notation CALL := (FCALL exec).
  Notation CALLS := (FCALLS exec).

  Definition fset2 (t : VType) (vr : N) (v : val F t) : Op := O2Set t (Some [vr]) 1 (Some [v]).
  (** 41-44 applyStartValues *)
  Definition start2 : list Op := [fset2 TFloat64 5 one].
  (** 74-77 applyContinuousInputs *)
  Definition continuous2 (time : F) (afterEvent : bool) : list Op :=
    [fset2 TFloat64 7 (continuous_input time afterEvent)].
  (** 113-129 applyDiscreteInputs; the two-element arrays of 114-115 are passed with the length 1 *)
  Definition discrete2 (time : F) : list Op :=
    let b := before_step time in
    [O2Set TFloat64 (Some [6; 9]%N) 1 (Some [tunable_input time; if b then nzero else one]);
     fset2 TInt32 19 (if b then -2147483648 else 2147483647)%Z;
     O2SetBoolean (Some [27]%N) 1 (Some [if b then 0 else 1]%Z);
     fset2 TString 29 (Some (if b then s_awesome else s_still_awesome))].
  (** 217-231 recordVariables *)
  Definition fget2 (t : VType) (zero : val F t) (vrs : list N) : Op :=
    O2Get t (Some vrs) (length vrs) (Some (repeat zero (length vrs))).
  Definition outputs2 : list Op :=
    [fget2 TFloat64 nzero [8; 10]%N; fget2 TInt32 0%Z [20; 34]%N; O2GetBoolean (Some [28]%N) 1 (Some [0%Z]);
     fget2 TString None [30]%N].
  Notation recordVariables := (frecord exec outputs2).

  Variables (S : N) (stop : F).
  (** simulate_fmi2_cs.c 26-58; [n] bounds the number of passes *)
  Fixpoint feed_loop2 (n : nat) (step : N) : FProg D unit :=
    match n with
    | O => nofuelM
    | Datatypes.S n =>
        let time := nmul (nofN step) (m_step m) in
        recordVariables time >>>
        CALLS (continuous2 time false) >>>
        CALLS (discrete2 time) >>>
        if nle stop time then fret tt else
        fun s =>
          match exec (O2DoStep time (m_step m)) s with
          | Done (st, _, s', _) =>
              (match st with
               | OK => feed_loop2 n (N.modulo (step + 1) two64)
               | Discard =>                                                      (* 41-54 *)
                   run out <- CALL (O2GetBooleanStatus KTerminated true) in
                   match out with
                   | OBool (Some true) =>
                       run out <- CALL (O2GetRealStatus LastSuccessfulTime true) in
                       match out with
                       | OReal (Some t) => recordVariables t
                       | _ => ubM
                       end
                   | OBool (Some false) => feed_loop2 n (N.modulo (step + 1) two64)
                   | _ => ubM
                   end
               | _ => ret (inr st)
               end) s'
          | UB => UB
          | NoFuel => NoFuel
          end
    end.
  (** simulate_fmi2_cs.c 11-58 *)
  Definition feed_cs2 (uri : bytes) (n : nat) :=
    fprogram exec O2Terminate
      (fmi2Instantiate m env feed_name CoSimulation (Some (m_token m)) (Some uri) S true false)
      (CALLS start2 >>>
       CALL (O2SetupExperiment nzero true stop) >>>
       CALL O2EnterInitializationMode >>>
       CALL O2ExitInitializationMode >>>
       feed_loop2 n 0).
End Feed2.

(** Programs.v -- the example programs examples/*.c of the repository that simulate an FMU through FMI 3.0:
    simulate_fmi3_cs.c, simulate_fmi3_me.c, cs_early_return.c, cs_event_mode.c, cs_intermediate_update.c,
    cs_reconfiguration.c and jacobian.c, with the parts of util.h they use and recordVariables of the FMUs.

    The programs are run over the API functions of the model ([exec3]); the wrappers FMI3... of src/FMI3.c through
    which they call them forward arguments and results (C44).  Simplifications: setUp succeeds (output files, the
    shared library, its symbols), the rows of the output file are the values and not their %g text, the inputs are
    those of NO_INPUTS (util.h 269-279: none), Feedthrough.c is in ProgramsFeed.v; allocations and the freeing of the
    instance (FMI3FreeInstance, FMIFreeInstance in tearDown) have no effect that is observed here. *)

From Coq Require Import List NArith ZArith Bool Arith.
From Verif Require Import Base Instance ModelIface Core Fmi3 Api Fmus.
Import ListNotations.
Set Implicit Arguments.

Section Programs.
  Context {F : Type} {NF : Num F} (f : FMU) (szof : N) (fuel : nat) (env : Env).
  Notation m := (model_of (F := F) FMI3 f).
  Notation D := (md m).
  Notation Op := (Op3 F D).

  (** A row of the output file: the time and what was read. *)
  Definition Row : Type := F * Out F D.
  (** The state is the FMU, the output the rows.  [inl x]: goes on; [inr st]: goto TERMINATE, [st] being the
      variable [status] (util.h 77). *)
  Definition Prog (X : Type) : Type := SW Row (Sys F D) (X + Status).
  Definition pret {X} (x : X) : Prog X := ret (inl x).
  Definition pbind {X Z} (p : Prog X) (k : X -> Prog Z) : Prog Z :=
    bind p (fun r => match r with inl x => k x | inr st => ret (inr st) end).
  Notation "'run' x '<-' p 'in' k" := (pbind p (fun x => k)) (at level 200, x pattern, p at level 100, k at level 200).
  Notation "p '>>>' k" := (pbind p (fun _ => k)) (at level 199, right associativity).
  (** [goto TERMINATE] after a call that returned FMIOK *)
  Definition finish {X} : Prog X := ret (inr OK).

  (** util.h 45: CALL(f) with an API function *)
  Definition CALL (o : Op) : Prog (Out F D) := fun s =>
    match exec3 m szof fuel env o s with
    | Done (st, out, s', _) => Done (match st with OK => inl out | _ => inr st end, s', [])
    | UB => UB
    | NoFuel => NoFuel
    end.

  (** ** CALL(recordVariables(S, time, outputFile)) *)
  (** BouncingBall.c 17-36, Clocks.c 15-27, Dahlquist.c 17-36, Resource.c 17-36, Stair.c 17-36, VanDerPol.c 17-36:
      the row is written whatever the status *)
  Definition record_values (t : VType) (zero : val F t) (vrs : list N) (time : F) : Prog unit := fun s =>
    let n := length vrs in
    match exec3 m szof fuel env (O3Get t (Some vrs) n (Some (repeat zero n)) n) s with
    | Done (st, out, s', _) => Done (match st with OK => inl tt | _ => inr st end, s', [(time, out)])
    | UB => UB
    | NoFuel => NoFuel
    end.
  (** StateSpace.c 17-47; r is not initialised by the program (30), y has R_MAX = 5 elements *)
  Definition at_most_warning (st : Status) : bool := Nat.leb (status_num st) (status_num Warning).
  Definition record_space (time : F) : Prog unit := fun s =>
    match exec3 m szof fuel env (O3Get TUInt64 (Some [3%N]) 1 (Some [0%N : val F TUInt64]) 1) s with
    | Done (st, OVals TUInt64 (Some [r]), s1, _) =>
        if at_most_warning st then
          match exec3 m szof fuel env (O3Get TFloat64 (Some [10%N]) 1 (Some (repeat (nzero : val F TFloat64) 5)) (N.to_nat r)) s1 with
          | Done (st, OVals TFloat64 (Some y), s2, _) =>
              Done (match st with OK => inl tt | _ => inr st end, s2,
                    if at_most_warning st then [(time, OVals TFloat64 (Some (firstn (N.to_nat r) y)))] else [])
          | NoFuel => NoFuel
          | _ => UB
          end
        else Done (inr st, s1, [])
    | NoFuel => NoFuel
    | _ => UB
    end.
  (** There is no recordVariables for Roberts; that of Feedthrough is in ProgramsFeed.v. *)
  Definition recordVariables : F -> Prog unit :=
    match f with
    | BouncingBall => record_values TFloat64 nzero [1; 3]%N
    | Clocks => record_values TInt32 0%Z [2001; 2002; 2003; 2004]%N
    | Dahlquist => record_values TFloat64 nzero [1]%N
    | Resource => record_values TInt32 0%Z [1]%N
    | Stair => record_values TInt32 0%Z [1]%N
    | StateSpace => record_space
    | VanDerPol => record_values TFloat64 nzero [1; 3]%N
    | Feedthrough | Roberts => fun _ => pret tt
    end.

  (** ** Beginning and end *)
  (** tearDown, util.h 224-267.  Result: the exit status, the rows, the FMU. *)
  Definition tearDown (st : Status) (s : Sys F D) (rows : list Row) : res (Status * list Row * option (Sys F D)) :=
    if Nat.ltb (status_num st) (status_num Error) then
      match exec3 m szof fuel env O3Terminate s with
      | Done (st', _, s', _) => Done (smax st st', rows, Some s')
      | UB => UB
      | NoFuel => NoFuel
      end
    else Done (st, rows, Some s).
  (** FMI3Instantiate... returns FMIError if there is no instance (FMI3.c 290-292, 365-367). *)
  Definition program (new : res (option (Inst F D) * list (Event F))) (body : Prog unit)
    : res (Status * list Row * option (Sys F D)) :=
    match new with
    | Done (Some i, _) =>
        match body (mkSys i []) with
        | Done (r, s, rows) => tearDown (match r with inl _ => OK | inr st => st end) s rows
        | UB => UB
        | NoFuel => NoFuel
        end
    | Done (None, _) => Done (Error, [], None)
    | UB => UB
    | NoFuel => NoFuel
    end.
  (** setUp, util.h 214: the instance is called "instance1"; the environment is the address of the FMIInstance; the
      token is that of the config.h the program is compiled with *)
  Definition instance1 : option bytes :=
    Some [Byte.x69; Byte.x6e; Byte.x73; Byte.x74; Byte.x61; Byte.x6e; Byte.x63; Byte.x65; Byte.x31].
  Variable S : N.
  Definition newCS (resource : option bytes) (eventMode early update : bool) :=
    fmi3InstantiateCoSimulation m env instance1 (Some (m_token m)) resource false eventMode early S true update.
  Definition newME (resource : option bytes) :=
    fmi3InstantiateModelExchange m env instance1 (Some (m_token m)) resource false S true.

  (** What DoStep wrote to its out arguments. *)
  Definition wants_end (out : Out F D) : bool :=
    match out with ODoStep o => match o_terminateSimulation o with Some b => b | None => false end | _ => false end.
  Definition has_event (out : Out F D) : bool :=
    match out with ODoStep o => match o_eventHandlingNeeded o with Some b => b | None => false end | _ => false end.
  (** lastSuccessfulTime, [t] if it was not written *)
  Definition last_time (t : F) (out : Out F D) : F :=
    match out with ODoStep o => match o_lastSuccessfulTime o with Some x => x | None => t end | _ => t end.

  (** ** simulate_fmi3_cs.c *)
  Variable stop : F.                                     (* DEFAULT_STOP_TIME, util.h 68 *)
  (** 30-49; [n] bounds the number of passes *)
  Fixpoint cs_loop (n : nat) (step : N) : Prog unit :=
    match n with
    | O => nofuelM
    | Datatypes.S n =>
        let time := nmul (nofN step) (m_step m) in
        recordVariables time >>>
        if nle stop time then pret tt else
        run out <- CALL (O3DoStep time (m_step m) true true true true) in
        if wants_end out then pret tt else cs_loop n (N.modulo (step + 1) two64)
    end.
  (** 12-49 *)
  Definition simulate_cs (path : bytes) (n : nat) :=
    program (newCS (Some path) false false false) (
      CALL (O3EnterInitializationMode nzero true stop) >>>
      CALL O3ExitInitializationMode >>>
      cs_loop n 0).

  (** ** simulate_fmi3_me.c *)
  (** 68-82 and 121-144: the event iteration.  Result: whether the nominal values and the values of the states
      changed, and the last nextEventTimeDefined and nextEventTime. *)
  Fixpoint event_iteration (n : nat) (nominals values : bool) : Prog (bool * bool * bool * F) :=
    match n with
    | O => nofuelM
    | Datatypes.S n =>
        run out <- CALL O3UpdateDiscreteStates in
        match out with
        | OEventInfo (Some e) =>
            let nominals := nominals || ei_nominalsChanged e in
            let values := values || ei_valuesChanged e in
            if ei_terminateSimulation e then finish
            else if ei_discreteStatesNeedUpdate e then event_iteration n nominals values
            else pret (nominals, values, ei_nextEventTimeDefined e, ei_nextEventTime e)
        | _ => ubM
        end
    end.
  (** CALL(FMI3Get...(S, x, n)) into the array [x] *)
  Definition CALL_array (o : Op) (x : list F) : Prog (list F) :=
    run out <- CALL o in pret (match out with OFloats (Some y) => y | _ => x end).
  (** [#if n > 0 ... #endif] around a call that fills the array [x] of [n] elements *)
  Definition if_any (n : nat) (o : Buf F -> nat -> Op) (x : list F) : Prog (list F) :=
    if Nat.ltb 0 n then CALL_array (o (Some x) n) x else pret x.
  (** 201-210 *)
  Definition roots (z z' : list F) : bool :=
    existsb (fun p => (nle (fst p) nzero && nlt nzero (snd p)) || (nlt nzero (fst p) && nle (snd p) nzero)) (combine z z').
  (** 182-184: x[i] += fixedStep * der_x[i] *)
  Definition advance (x dx : list F) : list F := map (fun p => nadd (fst p) (nmul (m_step m) (snd p))) (combine x dx).

  (** The macros NX and NZ of the program: no file of the repository defines them for these programs. *)
  Variables NX NZ : nat.
  (** 103-223; [x], [pz]: x, previous_z *)
  Fixpoint me_loop (n : nat) (step : N) (time : F) (x pz : list F) (stateEvent stepEvent ned : bool) (net : F) : Prog unit :=
    match n with
    | O => nofuelM
    | Datatypes.S n =>
        let inputEvent := nle ninf time in                                       (* util.h 271 *)
        let timeEvent := ned && nle net time in
        let eventOccurred := inputEvent || timeEvent || stateEvent || stepEvent in
        run r <-
          (if eventOccurred then
             CALL O3EnterEventMode >>>
             run e <- event_iteration n false false in
             let '(nominals, values, ned, net) := e in
             CALL O3EnterContinuousTimeMode >>>
             recordVariables time >>>
             run x <- (if values then if_any NX O3GetContinuousStates x else pret x) in
             (if nominals then if_any NX O3GetNominalsOfContinuousStates (repeat nzero NX) else pret []) >>>
             pret (x, ned, net)
           else pret (x, ned, net)) in
        let '(x, ned, net) := r in
        if nle stop time then finish else                                        (* 165-167 *)
        run dx <- if_any NX O3GetContinuousStateDerivatives (repeat nzero NX) in
        let step := N.modulo (step + 1) two64 in                                 (* 174 *)
        let time := nmul (nofN step) (m_step m) in
        CALL (O3SetTime time) >>>
        run x <- (if Nat.ltb 0 NX
                  then let x := advance x dx in
                       CALL (O3SetContinuousStates (Some x) NX) >>> pret x
                  else pret x) in
        run r <-
          (if Nat.ltb 0 NZ
           then run z <- CALL_array (O3GetEventIndicators (Some pz) NZ) pz in    (* 191-215 *)
                pret (z, negb eventOccurred && roots pz z)
           else pret (pz, stateEvent)) in
        let '(pz, stateEvent) := r in
        run out <- CALL (O3CompletedIntegratorStep (Some tt) (Some tt)) in       (* 219 *)
        recordVariables time >>>                                                 (* 222 *)
        match out with
        | OFlags (Some (stepEvent, terminate)) =>
            if terminate then pret tt else me_loop n step time x pz stateEvent stepEvent ned net
        | _ => ubM
        end
    end.
  (** 46-223 *)
  Definition simulate_me (path : bytes) (n : nat) :=
    program (newME (Some path)) (
      CALL (O3EnterInitializationMode nzero true stop) >>>
      CALL O3ExitInitializationMode >>>
      run e <- event_iteration n false false in
      let '(_, _, ned, net) := e in
      CALL O3EnterContinuousTimeMode >>>
      run pz <- if_any NZ O3GetEventIndicators (repeat nzero NZ) in
      run x <- if_any NX O3GetContinuousStates (repeat nzero NX) in
      if_any NX O3GetNominalsOfContinuousStates (repeat nzero NX) >>>
      recordVariables nzero >>>
      me_loop n 0 nzero x pz false false ned net).

  (** ** The communication step of the other programs: 10 * FIXED_SOLVER_STEP *)
  Definition stepSize : F := nmul (nlit 10 0) (m_step m).

  (** ** cs_early_return.c 37-61; [e]: terminateSimulation *)
  Fixpoint early_loop (n : nat) (time : F) (e : bool) : Prog unit :=
    match n with
    | O => nofuelM
    | Datatypes.S n =>
        recordVariables time >>>
        if e || nlt stop (nadd time stepSize) then pret tt else
        run out <- CALL (O3DoStep time stepSize true true true true) in
        early_loop n (last_time time out) (wants_end out)
    end.
  (** 12-61 *)
  Definition cs_early_return (n : nat) :=
    program (newCS None false true false) (
      CALL (O3EnterInitializationMode nzero true stop) >>>
      CALL O3ExitInitializationMode >>>
      early_loop n nzero false).

  (** ** cs_event_mode.c *)
  (** 95-109: like [event_iteration], but a request to end the simulation ends only the iteration *)
  Fixpoint step_events (n : nat) : Prog bool :=
    match n with
    | O => nofuelM
    | Datatypes.S n =>
        run out <- CALL O3UpdateDiscreteStates in
        match out with
        | OEventInfo (Some e) =>
            if ei_terminateSimulation e then pret true
            else if ei_discreteStatesNeedUpdate e then step_events n else pret false
        | _ => ubM
        end
    end.
  (** 65-114 *)
  Fixpoint event_loop (n : nat) (time : F) (e : bool) : Prog unit :=
    match n with
    | O => nofuelM
    | Datatypes.S n =>
        recordVariables time >>>
        if e || nlt stop (nadd time stepSize) then pret tt else
        run out <- CALL (O3DoStep time stepSize true true true true) in
        let time := last_time time out in
        if has_event out then
          recordVariables time >>>
          CALL O3EnterEventMode >>>
          run e <- step_events n in
          CALL O3EnterStepMode >>>
          event_loop n time e
        else event_loop n time (wants_end out)
    end.
  (** 18-114 *)
  Definition cs_event_mode (n : nat) :=
    program (newCS None true true false) (
      CALL (O3EnterInitializationMode nzero true stop) >>>
      CALL O3ExitInitializationMode >>>
      event_iteration n false false >>>
      CALL O3EnterStepMode >>>
      event_loop n nzero false).

  (** ** cs_intermediate_update.c 106-122.  DoStep writes lastSuccessfulTime to [time], to which the step size is
      then added.  The callback (9-73) reads variables; its rows are not modelled. *)
  Fixpoint update_loop (n : nat) (time : F) : Prog unit :=
    match n with
    | O => nofuelM
    | Datatypes.S n =>
        if nlt time stop then
          run out <- CALL (O3DoStep time stepSize true true true true) in
          update_loop n (nadd (last_time time out) stepSize)
        else pret tt
    end.
  (** 83-122 *)
  Definition cs_intermediate_update (n : nat) :=
    program (newCS None false false true) (
      CALL (O3EnterInitializationMode nzero true stop) >>>
      CALL O3ExitInitializationMode >>>
      update_loop n nzero).

  (** ** cs_reconfiguration.c (for StateSpace) *)
  Definition matrix (n : nat) : list F :=      (* 51-52, 83-85: the identity in the first n * n of 25 elements *)
    flat_map (fun i => map (fun j => if Nat.eqb i j then nlit 1 0 else nzero) (seq 0 n)) (seq 0 n) ++ repeat nzero (25 - n * n).
  (** 65-105; [k]: the remaining passes *)
  Fixpoint configured_loop (k step : nat) (time : F) : Prog unit :=
    match k with
    | O => pret tt
    | Datatypes.S k =>
        let h := nlit 1 (-1) in                                                  (* 12 *)
        recordVariables time >>>
        (if Nat.eqb step 5 then
           CALL O3EnterConfigurationMode >>>
           CALL (O3Set TUInt64 (Some [1; 3]%N) 2 (Some [3; 3]%N) 2) >>>
           CALL O3ExitConfigurationMode >>>
           CALL (O3Set TFloat64 (Some [7%N]) 1 (Some (matrix 3)) 9) >>> pret tt
         else pret tt) >>>
        CALL (O3Set TFloat64 (Some [9%N]) 1 (Some (map (fun i => nadd (nadd time h) (nofN (N.of_nat i))) (seq 0 5)))
                    (if Nat.ltb step 5 then 2 else 3)) >>>
        run out <- CALL (O3DoStep time h true true true true) in
        configured_loop k (step + 1) (last_time time out)
    end.
  (** 26-105 *)
  Definition cs_reconfiguration :=
    program (newCS None false false false) (
      CALL O3EnterConfigurationMode >>>
      CALL (O3Set TUInt64 (Some [1; 2; 3]%N) 3 (Some [2; 0; 2]%N) 3) >>>
      CALL O3ExitConfigurationMode >>>
      CALL (O3Set TFloat64 (Some [7%N]) 1 (Some (matrix 2)) 4) >>>
      CALL (O3Set TFloat64 (Some [9%N]) 1 (Some [nzero; nlit 1 0]) 2) >>>
      CALL (O3EnterInitializationMode nzero true stop) >>>
      CALL O3ExitInitializationMode >>>
      configured_loop 11 0 nzero).

  (** ** jacobian.c (for VanDerPol; x0, der(x0), x1, der(x1) have the value references 1 to 4) *)
  Definition show_array (o : Op) : Prog unit := run out <- CALL o in fun s => Done (inl tt, s, [(nzero, out)]).
  (** 25-88; the two columns and the two rows it computes are given as rows *)
  Definition jacobian :=
    program (newME None) (
      CALL (O3EnterInitializationMode nzero false nzero) >>>
      CALL O3ExitInitializationMode >>>
      CALL O3EnterContinuousTimeMode >>>
      run x <- CALL_array (O3GetContinuousStates (Some (repeat nzero 2)) 2) (repeat nzero 2) in
      CALL (O3SetTime nzero) >>>
      CALL (O3SetContinuousStates (Some x) 2) >>>
      show_array (O3GetDirectionalDerivative (Some [2; 4]%N) 2 (Some [1%N]) 1 (Some [nlit 1 0]) (Some (repeat nzero 2))) >>>
      show_array (O3GetDirectionalDerivative (Some [2; 4]%N) 2 (Some [3%N]) 1 (Some [nlit 1 0]) (Some (repeat nzero 2))) >>>
      show_array (O3GetAdjointDerivative (Some [2%N]) 1 (Some [1; 3]%N) 2 (Some [nlit 1 0]) (Some (repeat nzero 2))) >>>
      show_array (O3GetAdjointDerivative (Some [4%N]) 1 (Some [1; 3]%N) 2 (Some [nlit 1 0]) (Some (repeat nzero 2)))).
End Programs.

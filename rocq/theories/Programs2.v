(** Programs2.v -- the example programs of the repository that simulate an FMU through FMI 2.0: simulate_fmi2_cs.c and
    simulate_fmi2_me.c, with the parts of util.h they use and recordVariables of the FMUs.  Like Programs.v (see there
    for the simplifications), over the functions of the FMI 2 build ([exec2]). *)

From Coq Require Import List NArith ZArith Bool Arith.
From Verif Require Import Base Instance ModelIface Core Fmi3 Fmi2 Api Fmus.
Import ListNotations.
Set Implicit Arguments.

Section Programs2.
  Context {F : Type} {NF : Num F} (f : FMU) (szof : N) (fuel : nat) (env : Env).
  Notation m := (model_of (F := F) FMI2 f).
  Notation D := (md m).
  Notation Op := (Op2 F D).

  Definition Row2 : Type := F * Out F D.
  (** [inl x]: goes on; [inr st]: goto TERMINATE with this [status] *)
  Definition Prog2 (X : Type) : Type := SW Row2 (Sys F D) (X + Status).
  Definition pret2 {X} (x : X) : Prog2 X := ret (inl x).
  Definition pbind2 {X Z} (p : Prog2 X) (k : X -> Prog2 Z) : Prog2 Z :=
    bind p (fun r => match r with inl x => k x | inr st => ret (inr st) end).
  Notation "'run' x '<-' p 'in' k" := (pbind2 p (fun x => k)) (at level 200, x pattern, p at level 100, k at level 200).
  Notation "p '>>>' k" := (pbind2 p (fun _ => k)) (at level 199, right associativity).
  Definition finish2 {X} : Prog2 X := ret (inr OK).

  (** util.h 45: CALL(f) with an API function *)
  Definition CALL2 (o : Op) : Prog2 (Out F D) := fun s =>
    match exec2 m szof fuel env o s with
    | Done (st, out, s', _) => Done (match st with OK => inl out | _ => inr st end, s', [])
    | UB => UB
    | NoFuel => NoFuel
    end.

  (** CALL(recordVariables(S, time, outputFile)): BouncingBall.c 17-36, Dahlquist.c 17-36, Resource.c 17-36,
      Stair.c 17-36, VanDerPol.c 17-36 *)
  Definition record_values2 (t : VType) (zero : val F t) (vrs : list N) (time : F) : Prog2 unit := fun s =>
    let n := length vrs in
    match exec2 m szof fuel env (O2Get t (Some vrs) n (Some (repeat zero n))) s with
    | Done (st, out, s', _) => Done (match st with OK => inl tt | _ => inr st end, s', [(time, out)])
    | UB => UB
    | NoFuel => NoFuel
    end.
  (** That of Feedthrough is in ProgramsFeed.v; the other FMUs have no FMI 2 build. *)
  Definition recordVariables2 : F -> Prog2 unit :=
    match f with
    | BouncingBall => record_values2 TFloat64 nzero [1; 3]%N
    | Dahlquist => record_values2 TFloat64 nzero [1]%N
    | Resource => record_values2 TInt32 0%Z [1]%N
    | Stair => record_values2 TInt32 0%Z [1]%N
    | VanDerPol => record_values2 TFloat64 nzero [1; 3]%N
    | Clocks | Feedthrough | Roberts | StateSpace => fun _ => pret2 tt
    end.

  (** tearDown, util.h 224-267 *)
  Definition tearDown2 (st : Status) (s : Sys F D) (rows : list Row2) : res (Status * list Row2 * option (Sys F D)) :=
    if Nat.ltb (status_num st) (status_num Error) then
      match exec2 m szof fuel env O2Terminate s with
      | Done (st', _, s', _) => Done (smax st st', rows, Some s')
      | UB => UB
      | NoFuel => NoFuel
      end
    else Done (st, rows, Some s).
  (** FMI2Instantiate returns FMIError if there is no instance (FMI2.c 237-239). *)
  Definition program2 (new : res (option (Inst F D) * list (Event F))) (body : Prog2 unit)
    : res (Status * list Row2 * option (Sys F D)) :=
    match new with
    | Done (Some i, _) =>
        match body (mkSys i []) with
        | Done (r, s, rows) => tearDown2 (match r with inl _ => OK | inr st => st end) s rows
        | UB => UB
        | NoFuel => NoFuel
        end
    | Done (None, _) => Done (Error, [], None)
    | UB => UB
    | NoFuel => NoFuel
    end.
  (** setUp, util.h 214: "instance1" *)
  Definition instance1' : option bytes :=
    Some [Byte.x69; Byte.x6e; Byte.x73; Byte.x74; Byte.x61; Byte.x6e; Byte.x63; Byte.x65; Byte.x31].
  Variable S : N.
  Definition newFMI2 (ty : InterfaceType) (uri : bytes) :=
    fmi2Instantiate m env instance1' ty (Some (m_token m)) (Some uri) S true false.

  (** ** simulate_fmi2_cs.c *)
  Variable stop : F.                                     (* DEFAULT_STOP_TIME, util.h 61 *)
  (** 26-58; [n] bounds the number of passes *)
  Fixpoint cs_loop2 (n : nat) (step : N) : Prog2 unit :=
    match n with
    | O => nofuelM
    | Datatypes.S n =>
        let time := nmul (nofN step) (m_step m) in
        recordVariables2 time >>>
        if nle stop time then pret2 tt else
        fun s =>
          match exec2 m szof fuel env (O2DoStep time (m_step m)) s with
          | Done (st, _, s', _) =>
              (match st with
               | OK => cs_loop2 n (N.modulo (step + 1) two64)
               | Discard =>                                                      (* 41-54 *)
                   run out <- CALL2 (O2GetBooleanStatus KTerminated true) in
                   match out with
                   | OBool (Some true) =>
                       run out <- CALL2 (O2GetRealStatus LastSuccessfulTime true) in
                       match out with
                       | OReal (Some t) => recordVariables2 t
                       | _ => ubM
                       end
                   | OBool (Some false) => cs_loop2 n (N.modulo (step + 1) two64)
                   | _ => ubM
                   end
               | _ => ret (inr st)
               end) s'
          | UB => UB
          | NoFuel => NoFuel
          end
    end.
  (** 11-58 *)
  Definition simulate_cs2 (uri : bytes) (n : nat) :=
    program2 (newFMI2 CoSimulation uri) (
      CALL2 (O2SetupExperiment nzero true stop) >>>
      CALL2 O2EnterInitializationMode >>>
      CALL2 O2ExitInitializationMode >>>
      cs_loop2 n 0).

  (** ** simulate_fmi2_me.c *)
  (** 62-70 and 110-129: the event iteration.  Result: whether the nominal values and the values of the states
      changed, and eventInfo.nextEventTimeDefined and nextEventTime. *)
  Fixpoint event_iteration2 (n : nat) (nominals values : bool) : Prog2 (bool * bool * bool * F) :=
    match n with
    | O => nofuelM
    | Datatypes.S n =>
        run out <- CALL2 (O2NewDiscreteStates true) in
        match out with
        | OEventInfo (Some e) =>
            let nominals := nominals || ei_nominalsChanged e in
            let values := values || ei_valuesChanged e in
            if ei_terminateSimulation e then finish2
            else if ei_discreteStatesNeedUpdate e then event_iteration2 n nominals values
            else pret2 (nominals, values, ei_nextEventTimeDefined e, ei_nextEventTime e)
        | _ => ubM
        end
    end.
  (** CALL(FMI2Get...(S, x, n)) into the array [x]; [#if n > 0 ... #endif] around it *)
  Definition CALL_array2 (o : Op) (x : list F) : Prog2 (list F) :=
    run out <- CALL2 o in pret2 (match out with OFloats (Some y) => y | _ => x end).
  Definition if_any2 (n : nat) (o : Buf F -> nat -> Op) (x : list F) : Prog2 (list F) :=
    if Nat.ltb 0 n then CALL_array2 (o (Some x) n) x else pret2 x.
  (** 185-199 *)
  Definition roots2 (z z' : list F) : bool :=
    existsb (fun p => (nle (fst p) nzero && nlt nzero (snd p)) || (nlt nzero (fst p) && nle (snd p) nzero)) (combine z z').
  (** 168-170: x[i] += fixedStep * der_x[i] *)
  Definition advance2 (x dx : list F) : list F := map (fun p => nadd (fst p) (nmul (m_step m) (snd p))) (combine x dx).

  (** The macros NX and NZ of the program: no file of the repository defines them for these programs. *)
  Variables NX NZ : nat.
  (** 90-212; [x], [pz]: x, previous_z *)
  Fixpoint me_loop2 (n : nat) (step : N) (time : F) (x pz : list F) (stateEvent stepEvent ned : bool) (net : F) : Prog2 unit :=
    match n with
    | O => nofuelM
    | Datatypes.S n =>
        let inputEvent := nle ninf time in                                       (* util.h 271 *)
        let timeEvent := ned && nle net time in
        let eventOccurred := inputEvent || timeEvent || stateEvent || stepEvent in
        run r <-
          (if eventOccurred then
             CALL2 O2EnterEventMode >>>
             run e <- event_iteration2 n false false in
             let '(nominals, values, ned, net) := e in
             CALL2 O2EnterContinuousTimeMode >>>
             recordVariables2 time >>>
             run x <- (if values then if_any2 NX O2GetContinuousStates x else pret2 x) in
             (if nominals then if_any2 NX O2GetNominals (repeat nzero NX) else pret2 []) >>>
             pret2 (x, ned, net)
           else pret2 (x, ned, net)) in
        let '(x, ned, net) := r in
        if nle stop time then finish2 else                                       (* 150-152 *)
        run dx <- if_any2 NX O2GetDerivatives (repeat nzero NX) in
        let step := N.modulo (step + 1) two64 in                                 (* 159 *)
        let time := nmul (nofN step) (m_step m) in
        CALL2 (O2SetTime time) >>>
        run x <- (if Nat.ltb 0 NX
                  then let x := advance2 x dx in
                       CALL2 (O2SetContinuousStates (Some x) NX) >>> pret2 x
                  else pret2 x) in
        run r <-
          (if Nat.ltb 0 NZ
           then run z <- CALL_array2 (O2GetEventIndicators (Some pz) NZ) pz in   (* 175-201 *)
                pret2 (z, negb eventOccurred && roots2 pz z)
           else pret2 (pz, stateEvent)) in
        let '(pz, stateEvent) := r in
        run out <- CALL2 (O2CompletedIntegratorStep (Some tt) (Some tt)) in      (* 204 *)
        match out with
        | OFlags (Some (stepEvent, terminate)) =>
            if terminate then finish2 else                                       (* 206-208 *)
            recordVariables2 time >>>                                            (* 211 *)
            me_loop2 n step time x pz stateEvent stepEvent ned net
        | _ => ubM
        end
    end.
  (** 35-212 *)
  Definition simulate_me2 (uri : bytes) (n : nat) :=
    program2 (newFMI2 ModelExchange uri) (
      CALL2 (O2SetupExperiment nzero true stop) >>>
      CALL2 O2EnterInitializationMode >>>
      CALL2 O2ExitInitializationMode >>>
      run e <- event_iteration2 n false false in
      let '(_, _, ned, net) := e in
      CALL2 O2EnterContinuousTimeMode >>>
      run pz <- if_any2 NZ O2GetEventIndicators (repeat nzero NZ) in
      run x <- if_any2 NX O2GetContinuousStates (repeat nzero NX) in
      if_any2 NX O2GetNominals (repeat nzero NX) >>>
      recordVariables2 nzero >>>
      me_loop2 n 0 nzero x pz false false ned net).
End Programs2.

(** SpecSettable.v -- which variables can be read and assigned when: the attributes of the variables in the model
    descriptions (files FMI3.xml and FMI2.xml of each model, element ModelVariables) and the rules of the standards (C69, C70). *)
From Coq Require Import List NArith ZArith Bool.
From Verif Require Import Base Instance ModelIface Core Fmi3 Fmi2 Api Fmus FmuResource SpecModes.
Import ListNotations.
Set Implicit Arguments.

(** Attributes of a variable (FMI 3.0, 2.4.7.4; FMI 2.0, 2.2.7). *)
Inductive Causality := Independent | Input | Output | LocalVar | Param | Structural.
Inductive Variability := Constant | Fixed | Tunable | Discrete | Continuous.
Inductive Initial := Exact | Approx | Calculated.
Definition Attributes : Type := N * VType * (Causality * Variability * Initial).

Definition each (t : VType) (a : Causality * Variability * Initial) (l : list N) : list Attributes := map (fun vr => (vr, t, a)) l.
Definition timeA := each TFloat64 (Independent, Continuous, Calculated) [0]%N.
(** Attributes that are not written have their default values: local; continuous for floating-point numbers and discrete
    for the others; exact for parameters, inputs and constants and calculated for outputs and local variables. *)
Definition attributes (v : Version) (f : FMU) : list Attributes :=
  match f with
  | BouncingBall => timeA ++ each TFloat64 (Output, Continuous, Exact) [1; 3] ++ each TFloat64 (LocalVar, Continuous, Calculated) [2; 4] ++
      each TFloat64 (Param, Fixed, Exact) [5] ++ each TFloat64 (Param, Tunable, Exact) [6] ++ each TFloat64 (LocalVar, Constant, Exact) [7]
  | Dahlquist => timeA ++ each TFloat64 (Output, Continuous, Exact) [1] ++ each TFloat64 (LocalVar, Continuous, Calculated) [2] ++
      each TFloat64 (Param, Fixed, Exact) [3]
  | VanDerPol => timeA ++ each TFloat64 (Output, Continuous, Exact) [1; 3] ++ each TFloat64 (LocalVar, Continuous, Calculated) [2; 4] ++
      each TFloat64 (Param, Fixed, Exact) [5]
  | Stair => timeA ++ each TInt32 (Output, Discrete, Exact) [1]
  | Resource => timeA ++ each TInt32 (Output, Discrete, Calculated) [1]
  | Roberts => timeA ++ each TBoolean (Structural, Tunable, Exact) [1] ++ each TFloat64 (Output, Continuous, Exact) [2; 4] ++
      each TFloat64 (Output, Continuous, Approx) [6] ++ each TFloat64 (LocalVar, Continuous, Calculated) [3; 5; 8; 9; 10] ++
      each TFloat64 (LocalVar, Constant, Exact) [7]
  | Clocks => timeA ++ each TInt32 (Output, Discrete, Calculated) [2001; 2002; 2003; 2004; 2005; 2007] ++ each TInt32 (Input, Discrete, Exact) [2006]
  | StateSpace => timeA ++ each TUInt64 (Structural, Tunable, Exact) [1; 2; 3] ++ each TFloat64 (Param, Tunable, Exact) [4; 5; 6; 7; 8] ++
      each TFloat64 (Input, Continuous, Exact) [9] ++ each TFloat64 (Output, Continuous, Calculated) [10] ++
      each TFloat64 (LocalVar, Continuous, Calculated) [11; 12]
  | Feedthrough =>
      timeA ++ each TFloat64 (Param, Fixed, Exact) [5] ++ each TFloat64 (Param, Tunable, Exact) [6] ++
      each TFloat64 (Input, Continuous, Exact) [7] ++ each TFloat64 (Output, Continuous, Calculated) [8] ++
      each TFloat64 (Input, Discrete, Exact) [9] ++ each TFloat64 (Output, Discrete, Calculated) [10] ++
      each TInt32 (Input, Discrete, Exact) [19] ++ each TInt32 (Output, Discrete, Calculated) [20] ++
      each TBoolean (Input, Discrete, Exact) [27] ++ each TBoolean (Output, Discrete, Calculated) [28] ++
      each TString (Input, Discrete, Exact) [29] ++ each TString (Output, Discrete, Calculated) [30] ++
      match v with
      | FMI2 => each TInt32 (Input, Discrete, Exact) [33] ++ each TInt32 (Output, Discrete, Calculated) [34]
      | FMI3 =>
          each TFloat32 (Input, Continuous, Exact) [1] ++ each TFloat32 (Output, Continuous, Calculated) [2] ++
          each TFloat32 (Input, Discrete, Exact) [3] ++ each TFloat32 (Output, Discrete, Calculated) [4] ++
          each TInt8 (Input, Discrete, Exact) [11] ++ each TInt8 (Output, Discrete, Calculated) [12] ++
          each TUInt8 (Input, Discrete, Exact) [13] ++ each TUInt8 (Output, Discrete, Calculated) [14] ++
          each TInt16 (Input, Discrete, Exact) [15] ++ each TInt16 (Output, Discrete, Calculated) [16] ++
          each TUInt16 (Input, Discrete, Exact) [17] ++ each TUInt16 (Output, Discrete, Calculated) [18] ++
          each TUInt32 (Input, Discrete, Exact) [21] ++ each TUInt32 (Output, Discrete, Calculated) [22] ++
          each TInt64 (Input, Discrete, Exact) [23; 33] ++ each TInt64 (Output, Discrete, Calculated) [24; 34] ++
          each TUInt64 (Input, Discrete, Exact) [25] ++ each TUInt64 (Output, Discrete, Calculated) [26]
      end
  end%N.

(** A variable that is never assigned: the time, a constant, or one that is computed. *)
Definition never_set (a : Causality * Variability * Initial) : bool :=
  match a with
  | (Independent, _, _) | (_, Constant, _) | (_, _, Calculated) => true
  | _ => false
  end.
(** When a variable may be assigned in FMI 3.0 (sections 2.3.2 to 2.3.8 and the tables of the interface types); [ty] is
    the interface type and [ev] tells whether the importer uses event mode.  Structural parameters only in Configuration and Reconfiguration Mode; start values
    before and inputs and parameters during the initialization; afterwards inputs and tunable parameters, discrete ones
    only at events. *)
Definition may_set3 (ty : InterfaceType) (ev : bool) (md : ModelState) (a : Causality * Variability * Initial) : bool :=
  match md, a with
  | Instantiated, (Structural, _, _) | InitializationMode, (Structural, _, _) => false
  | Instantiated, (_, _, Approx) => negb (never_set a)
  | Instantiated, (_, _, Exact) | InitializationMode, (_, _, Exact) => negb (never_set a)
  | ConfigurationMode, (Structural, _, _) => true
  | ReconfigurationMode, (Structural, Tunable, _) => true
  | EventMode, (Input, _, _) | EventMode, (Param, Tunable, _) => true
  | ContinuousTimeMode, (Input, Continuous, _) => true
  | StepMode, (Input, Continuous, _) => match ty with CoSimulation => true | _ => false end
  | StepMode, (Input, _, _) | StepMode, (Param, Tunable, _) => match ty with CoSimulation => negb ev | _ => false end
  | ClockActivationMode, (Input, _, _) => match ty with ScheduledExecution => true | _ => false end
  | _, _ => false
  end.
(** FMI 2.0 (sections 2.1.7, 3.2.3 and 4.2.4). *)
Definition may_set2 (ty : InterfaceType) (md : ModelState) (a : Causality * Variability * Initial) : bool :=
  match md, a with
  | Instantiated, (_, _, Approx) => negb (never_set a)
  | Instantiated, (_, _, Exact) | InitializationMode, (_, _, Exact) => negb (never_set a)
  | EventMode, (Input, _, _) | EventMode, (Param, Tunable, _) => true
  | ContinuousTimeMode, (Input, Continuous, _) => true
  | StepComplete, (Input, _, _) | StepComplete, (Param, Tunable, _) => match ty with CoSimulation => true | _ => false end
  | _, _ => false
  end.

(** The values a variable can have, as declared: the enumeration has the items 1 and 2 and the strings fit into 128
    bytes with their NUL; the counter of Stair is at most 10. *)
Definition in_range {F} (f : FMU) (t : VType) (vr : N) : list (val F t) -> Prop :=
  match t with
  | TInt64 => fun l => f = Feedthrough -> vr = 33%N -> l = [1%Z] \/ l = [2%Z]
  | TInt32 => fun l => (f = Feedthrough -> vr = 33%N -> l = [1%Z] \/ l = [2%Z]) /\ (f = Stair -> Forall (fun x => (x <= 10)%Z) l)
  | TString => fun l => Forall (fun x => exists s, x = Some s /\ length (cstr s) < 128) l
  | _ => fun _ => True
  end.
(** What the code cannot do although it is declared (see the refutations): the counter of Stair cannot be set to 10, and
    no structural parameter of StateSpace can be set by itself. *)
Definition works {F} (f : FMU) (t : VType) : list (val F t) -> Prop :=
  match t with
  | TInt32 => fun l => f = Stair -> Forall (fun x => x <> 10%Z) l
  | TUInt64 => fun _ => f <> StateSpace
  | _ => fun _ => True
  end.

(** Resource can be evaluated: the file in its resource directory can be read. *)
Definition file_there {F D} (env : Env) (s : Sys F D) : Prop :=
  exists loc path y, resourceLocation (ctl (sinst s)) = Some loc /\ path3 (cstr loc) = Some path /\ env_file env path = Some y.
Definition file_there2 {F D} (env : Env) (s : Sys F D) : Prop :=
  exists loc path y, resourceLocation (ctl (sinst s)) = Some loc /\ path2 (cstr loc) = Some path /\ env_file env path = Some y.

(** The call that assigns one variable in FMI 2.0. *)
Definition set_op2 {F D} (t : VType) (vr : N) : val F t -> Op2 F D :=
  match t with
  | TBoolean => fun x : bool => O2SetBoolean (Some [vr]) 1 (Some [if x then 1%Z else 0%Z])
  | t => fun x => O2Set t (Some [vr]) 1 (Some [x])
  end.

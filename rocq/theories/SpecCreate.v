(** SpecCreate.v -- specification of instantiation: what the model descriptions (FMI3.xml and
    FMI2.xml of each FMU) say about tokens, interface types, event mode and start values. *)
From Coq Require Import List NArith ZArith Bool Strings.String.
From Verif Require Import Base Instance ModelIface Core Fmi3 Fmi2 Api Fmus SpecModes.
Import ListNotations.
Open Scope list_scope.
Set Implicit Arguments.

(** attribute instantiationToken (FMI3.xml) = guid (FMI2.xml) *)
Definition guid (f : FMU) : bytes :=
  String.list_byte_of_string
    match f with
    | BouncingBall => "{1AE5E10D-9521-4DE3-80B9-D0EAAA7D5AF1}"
    | Clocks => "{C5F142BA-B849-42DA-B4A1-4745BFF3BE28}"
    | Dahlquist => "{221063D2-EF4A-45FE-B954-B5BFEEA9A59B}"
    | Feedthrough => "{37B954F1-CC86-4D8F-B97F-C7C36F6670D2}"
    | Resource => "{7b9c2114-2ce5-4076-a138-2cbc69e069e5}"
    | Roberts => "{1AE5E10D-9521-4DE3-80B9-D0EAAA7D5AF2}"
    | Stair => "{BD403596-3166-4232-ABC2-132BDF73E644}"
    | StateSpace => "{D773325B-AB94-4630-BF85-643EB24FCB78}"
    | VanDerPol => "{BD403596-3166-4232-ABC2-132BDF73E644}"
    end%string.

(** elements ModelExchange, CoSimulation, ScheduledExecution of FMI3.xml *)
Definition declares3 (f : FMU) (ty : InterfaceType) : bool :=
  match f, ty with
  | Clocks, ScheduledExecution => true
  | Clocks, _ => false
  | _, ScheduledExecution => false
  | _, _ => true
  end.
(** attribute hasEventMode of CoSimulation in FMI3.xml *)
Definition declares_eventMode (f : FMU) : bool :=
  match f with BouncingBall | Feedthrough | Roberts | Stair | StateSpace => true | _ => false end.

(** FMUs whose code handles events *)
Definition handles_events (f : FMU) : bool :=
  match f with BouncingBall | Clocks | Feedthrough | Stair | StateSpace => true | _ => false end.

(** The FMUs that implement the functions for output derivatives *)
Definition has_output_derivatives (f : FMU) : bool :=
  match f with BouncingBall => true | _ => false end.

Definition is_name (p : option bytes) : Prop := exists n, p = Some n /\ cstr n <> [].
Definition is_token (f : FMU) (p : option bytes) : Prop := exists t, p = Some t /\ cstr t = guid f.

Section Starts.
  Context {F : Type} {NF : Num F}.

  (** A variable with a start value: type, value reference, values (one, or the elements of an array). *)
  Inductive StartVal := SV (t : VType) (vr : N) (vals : list (val F t)).
  Definition fl (vr : N) (m e : Z) : StartVal := SV TFloat64 vr [nlit m e].

  (** The decimal -9.81 is the negation of 9.81 and the integers 1, 2, 3 are converted (both exact in
      binary64).
      attribute start (with initial="exact", parameters, inputs and constants) of FMI3.xml *)
  Definition starts3 (f : FMU) : list StartVal :=
    match f with
    | BouncingBall => [fl 1 1 0; fl 3 0 0; SV TFloat64 5 [nopp (nlit 981 (-2))]; fl 6 7 (-1); fl 7 1 (-1)]
    | Clocks => [SV TInt32 2006 [0%Z]]
    | Dahlquist => [fl 1 1 0; fl 3 1 0]
    | Feedthrough =>
        [SV TFloat32 1 [0%N]; SV TFloat32 3 [0%N]; fl 5 0 0; fl 6 0 0; fl 7 0 0; fl 9 0 0;
         SV TInt8 11 [0%Z]; SV TUInt8 13 [0%N]; SV TInt16 15 [0%Z]; SV TUInt16 17 [0%N];
         SV TInt32 19 [0%Z]; SV TUInt32 21 [0%N]; SV TInt64 23 [0%Z]; SV TUInt64 25 [0%N];
         SV TBoolean 27 [false]; SV TString 29 [Some (String.list_byte_of_string "Set me!")];
         SV TInt64 33 [1%Z]]
    | Resource => []
    | Roberts => [SV TBoolean 1 [false]; fl 2 1 0; fl 4 0 0; fl 7 1 (-2)]
    | Stair => [SV TInt32 1 [1%Z]]
    | StateSpace =>
        let one := nlit 1 0 in let o := nlit 0 0 in
        let id := [one; o; o; o; one; o; o; o; one] in
        [SV TUInt64 1 [3%N]; SV TUInt64 2 [3%N]; SV TUInt64 3 [3%N];
         SV TFloat64 4 id; SV TFloat64 5 id; SV TFloat64 6 id; SV TFloat64 7 id;
         SV TFloat64 8 [o; o; o]; SV TFloat64 9 [nofN 1; nofN 2; nofN 3]]
    | VanDerPol => [fl 1 2 0; fl 3 0 0; fl 5 1 0]
    end.
  (** Start of the binary variable Feedthrough.Binary_input: 666f6f *)
  Definition binary_starts3 (f : FMU) : list (N * bytes) :=
    match f with Feedthrough => [(31%N, [Byte.x66; Byte.x6f; Byte.x6f])] | _ => [] end.

  (** the same from FMI2.xml; Boolean variables separately *)
  Definition starts2 (f : FMU) : list StartVal :=
    match f with
    | BouncingBall => [fl 1 1 0; fl 3 0 0; SV TFloat64 5 [nopp (nlit 981 (-2))]; fl 6 7 (-1); fl 7 1 (-1)]
    | Dahlquist => [fl 1 1 0; fl 3 1 0]
    | Feedthrough =>
        [fl 5 0 0; fl 6 0 0; fl 7 0 0; fl 9 0 0; SV TInt32 19 [0%Z];
         SV TString 29 [Some (String.list_byte_of_string "Set me!")]; SV TInt32 33 [1%Z]]
    | Stair => [SV TInt32 1 [1%Z]]
    | VanDerPol => [fl 1 2 0; fl 3 0 0; fl 5 1 0]
    | _ => []
    end.

  (** Reading the start values of a fresh FMI 3.0 instance [i]: every Get of a start-valued
      variable, in every environment, into any array of the right size, returns OK and the start
      value and sends no message. *)
  Definition reads3 (f : FMU) (i : Inst F (md (model_of FMI3 f))) (sv : StartVal) : Prop :=
    let '(SV t vr vals) := sv in
    forall buf szof fuel env, List.length buf = List.length vals ->
      exists s', exec3 (model_of FMI3 f) szof fuel env
                   (O3Get t (Some [vr]) 1 (Some buf) (List.length vals)) (mkSys i []) =
                 Done (OK, OVals t (Some vals), s', []).
  Definition reads_binary3 (f : FMU) (i : Inst F (md (model_of FMI3 f))) (sv : N * bytes) : Prop :=
    forall n v szof fuel env,
      exists s', exec3 (model_of FMI3 f) szof fuel env
                   (O3GetBinary (Some [fst sv]) 1 (Some [n]) (Some [v]) 1) (mkSys i []) =
                 Done (OK, OBin (Some [List.length (snd sv)]) (Some [snd sv]), s', []).
  Definition reads_starts3 (f : FMU) (i : Inst F (md (model_of FMI3 f))) : Prop :=
    Forall (reads3 f i) (starts3 f) /\ Forall (reads_binary3 f i) (binary_starts3 f).

  (** In FMI 2.0 variables can be read from Initialization Mode on.  [fmi2Boolean] is int. *)
  Definition reads2 (f : FMU) (i : Inst F (md (model_of FMI2 f))) (sv : StartVal) : Prop :=
    let '(SV t vr vals) := sv in
    forall buf szof fuel env1 env2, List.length buf = List.length vals ->
      exists s', run2 (model_of FMI2 f) szof fuel
                   [(env1, O2EnterInitializationMode); (env2, O2Get t (Some [vr]) 1 (Some buf))]
                   (mkSys i []) =
                 Done ([(OK, ONone, []); (OK, OVals t (Some vals), [])], s').
  Definition boolean_starts2 (f : FMU) : list (N * Z) :=
    match f with Feedthrough => [(27%N, 0%Z)] | _ => [] end.
  Definition reads_boolean2 (f : FMU) (i : Inst F (md (model_of FMI2 f))) (sv : N * Z) : Prop :=
    forall b szof fuel env1 env2,
      exists s', run2 (model_of FMI2 f) szof fuel
                   [(env1, O2EnterInitializationMode); (env2, O2GetBoolean (Some [fst sv]) 1 (Some [b]))]
                   (mkSys i []) =
                 Done ([(OK, ONone, []); (OK, OBools2 (Some [snd sv]), [])], s').
  Definition reads_starts2 (f : FMU) (i : Inst F (md (model_of FMI2 f))) : Prop :=
    Forall (reads2 f i) (starts2 f) /\ Forall (reads_boolean2 f i) (boolean_starts2 f).

  (** The settings of a new instance. *)
  Definition fresh {D} (name resource : option bytes) (ty : InterfaceType) (logger loggingOn : bool)
             (environment : N) (eventMode earlyReturn : bool) (i : Inst F D) : Prop :=
    let c := ctl i in
    mode c = Instantiated /\ itype c = ty /\ Some (instanceName c) = option_map cstr name /\
    resourceLocation c = option_map cstr resource /\ hasLogger c = logger /\ logEvents c = loggingOn /\
    logErrors c = true /\ componentEnvironment c = environment /\
    eventModeUsed c = eventMode /\ earlyReturnAllowed c = earlyReturn /\
    time c = nzero /\ nSteps c = 0%N.
End Starts.

(** The FMUs the build system builds for FMI 2.0 (CMakeLists.txt). *)
Definition built2 (f : FMU) : bool :=
  match f with Clocks | Roberts | StateSpace => false | _ => true end.

(** SpecWrap.v -- what the state kept by the importer should say. *)
From Coq Require Import List NArith.
From Verif Require Import Base Instance ModelIface Core Fmi3 Fmi2 Api ImpWrap.
Import ListNotations.

(** The mode of an FMI 3.0 FMU that a state of the importer names. *)
Definition mode_named (x : FMIState) : option ModelState :=
  match x with
  | FMIStartAndEndState => None
  | FMIInstantiatedState => Some Instantiated
  | FMIInitializationModeState => Some InitializationMode
  | FMITerminatedState => Some Terminated
  | FMIConfigurationModeState => Some ConfigurationMode
  | FMIReconfigurationModeState => Some ReconfigurationMode
  | FMIEventModeState => Some EventMode
  | FMIContinuousTimeModeState => Some ContinuousTimeMode
  | FMIStepModeState => Some StepMode
  | FMIClockActivationMode => Some ClockActivationMode
  end.
(** In FMI 2.0 the importer's step mode is the state after a step. *)
Definition mode_named2 (x : FMIState) : option ModelState :=
  match x with FMIStepModeState => Some StepComplete | _ => mode_named x end.

Section Wrapped.
  Context {F : Type} {NF : Num F} (m : Model F).
  Notation D := (md m).

  (** The importer created the instance. *)
  Definition wrapped3 (w : Wrap) (s : Sys F D) : Prop :=
    (exists env n t r b e l tr, FMI3InstantiateModelExchange m env n t r b e l = Done (OK, Some (w, s), tr)) \/
    (exists env n t r b ev er e l iu tr, FMI3InstantiateCoSimulation m env n t r b ev er e l iu = Done (OK, Some (w, s), tr)) \/
    (exists env n t r b e l cu lo ul tr, FMI3InstantiateScheduledExecution m env n t r b e l cu lo ul = Done (OK, Some (w, s), tr)).
  Definition wrapped2 (w : Wrap) (s : Sys F D) : Prop :=
    exists env n ty t r e b tr, FMI2Instantiate m env n ty t r e b = Done (OK, Some (w, s), tr).

  Definition all_ok (obs : list (Obs m)) : Prop := Forall (fun r => fst (fst r) = OK) obs.

  (** Calls the importer's state does not follow. *)
  Definition unfollowed3 (o : Op3 F D) : bool :=
    match o with O3EnterStepMode | O3SetFMUState _ => true | _ => false end.
  Definition unfollowed2 (o : Op2 F D) : bool :=
    match o with O2SetFMUstate _ => true | _ => false end.
End Wrapped.

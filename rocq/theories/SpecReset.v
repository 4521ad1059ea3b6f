(** SpecReset.v -- specification vocabulary for C16 (Reset). *)
From Coq Require Import List NArith ZArith Bool.
From Verif Require Import Base Instance ModelIface Fmi3 Fmi2 Api Fmus SpecModes SpecHist FmuStateSpace.
Import ListNotations.
Set Implicit Arguments.

Section SpecReset.
  Context {F : Type} {NF : Num F}.

  (** A new instance created like the instance of [s]: same type, name, resources, environment,
      callbacks and co-simulation settings. *)
  Definition created_alike {D} (i0 : Inst F D) (s : Sys F D) : Prop :=
    identity (mkSys i0 []) = identity s /\
    earlyReturnAllowed (ctl i0) = earlyReturnAllowed (ctl (sinst s)) /\
    eventModeUsed (ctl i0) = eventModeUsed (ctl (sinst s)).

  (** What Reset leaves behind and later calls can see: the wish to terminate in Stair and the
      initial state x0 of StateSpace. *)
  Definition nothing_left v f : Inst F (md (model_of (F := F) v f)) -> Inst F (md (model_of (F := F) v f)) -> Prop :=
    match f return Inst F (md (model_of (F := F) v f)) -> Inst F (md (model_of (F := F) v f)) -> Prop with
    | Stair => fun i _ => terminateSimulation (mut i) = false
    | StateSpace => fun i i0 => ss_x0 (data (mut i)) = ss_x0 (data (mut i0))
    | _ => fun _ _ => True
    end.

  (** The FMU has continuous states or event indicators. *)
  Definition has_solver (m : Model F) : Prop := m_maxX m <> 0 \/ m_maxZ m <> 0.

  (** In the run of [l] from [s], EnterStepMode is not called directly in Initialization Mode. *)
  Fixpoint leaves_initialization (m : Model F) szof fuel (l : list (Env * Op3 F (md m))) (s : Sys F (md m)) : Prop :=
    match l with
    | [] => True
    | (e, o) :: l' =>
        match o with O3EnterStepMode => mode_of s <> InitializationMode | _ => True end /\
        match exec3 m szof fuel e o s with
        | Done (_, _, s', _) => leaves_initialization m szof fuel l' s'
        | _ => True
        end
    end.
End SpecReset.

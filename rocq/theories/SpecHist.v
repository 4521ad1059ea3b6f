(** SpecHist.v -- specification vocabulary for statuses, identity and logging. *)
From Coq Require Import List NArith ZArith Bool.
From Verif Require Import Base Instance Api.
Import ListNotations.
Set Implicit Arguments.

Section SpecHist.
  Context {F D : Type}.

  (** What identifies an instance: interface type, name, resources, environment, callbacks. *)
  Definition identity (s : Sys F D) :=
    let c := ctl (sinst s) in
    (itype c, instanceName c, resourceLocation c, componentEnvironment c,
     (hasLogger c, hasIntermediateUpdate c, hasClockUpdate c, hasLockPreemption c, hasUnlockPreemption c)).
  (** The enabled log categories. *)
  Definition logging (s : Sys F D) : bool * bool :=
    (logEvents (ctl (sinst s)), logErrors (ctl (sinst s))).

  Definition is_log (e : Event F) : bool := match e with ELog _ _ => true | _ => false end.
  Definition debugs3 (o : Op3 F D) : bool := match o with O3SetDebugLogging _ _ _ => true | _ => false end.
  Definition debugs2 (o : Op2 F D) : bool := match o with O2SetDebugLogging _ _ _ => true | _ => false end.

  (** The fmi3 calls whose failure terminates the instance: all but the not implemented ones
      (GetOutputDerivatives is one of these in FMUs without output derivatives). *)
  Definition terminating (hasOutputDerivatives : bool) (o : Op3 F D) : bool :=
    match o with
    | O3NotImplemented => false
    | O3GetOutputDerivatives _ _ _ _ => hasOutputDerivatives
    | _ => true
    end.
End SpecHist.

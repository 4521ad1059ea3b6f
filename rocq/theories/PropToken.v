(** PropToken.v -- the token tells the FMUs apart (C73). *)
From Coq Require Import List NArith ZArith Bool Strings.String.
From Verif Require Import Base Instance ModelIface Core Fmi3 Fmi2 Api Fmus NumB64 SpecModes SpecCreate Create Token Samples.
Import ListNotations.
Open Scope list_scope.
Set Implicit Arguments.

(** An FMU given the token of another one refuses to be instantiated, in every way.  The exception: C73_refuted. *)
Theorem C73_foreign_partial :
  forall (F : Type) (NF : Num F) (f g : FMU) token env name resource loggingOn eventMode earlyReturn environment logger intermediate,
    f <> g -> ~ (f = Stair /\ g = VanDerPol \/ f = VanDerPol /\ g = Stair) -> is_token g token ->
    (exists tr, fmi3InstantiateModelExchange (F := F) (model_of FMI3 f) env name token resource loggingOn environment logger = Done (None, tr)) /\
    (exists tr, fmi3InstantiateCoSimulation (F := F) (model_of FMI3 f) env name token resource loggingOn eventMode earlyReturn environment logger intermediate = Done (None, tr)) /\
    (forall clockUpdate lock unlock, exists tr, fmi3InstantiateScheduledExecution (F := F) (model_of FMI3 f) env name token resource loggingOn environment logger clockUpdate lock unlock = Done (None, tr)) /\
    (forall ty, exists tr, fmi2Instantiate (F := F) (model_of FMI2 f) env name ty token resource environment logger loggingOn = Done (None, tr)).
Proof. exact @foreign. Qed.
Example C73_applies : Clocks <> Roberts /\ is_token Roberts (Some (guid Roberts)).
Proof. split; [discriminate|]. eexists. split; reflexivity. Qed.
(** Stair and VanDerPol have the same token: each starts with the model description of the other. *)
Theorem C73_refuted :
  exists f g token i, f <> g /\ is_token g token /\
    fmi3InstantiateModelExchange (F := B64) (model_of FMI3 f) env0 name0 token None false 0%N true = Done (Some i, []).
Proof.
  exists Stair, VanDerPol, (Some (guid VanDerPol)). eexists. split; [discriminate|]. split; [eexists; split; reflexivity|].
  vm_compute. reflexivity.
Qed.
Definition PropToken_all := (@C73_foreign_partial, C73_applies, C73_refuted).
Print Assumptions PropToken_all.

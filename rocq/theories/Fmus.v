(** Fmus.v -- the nine FMUs of the repository (top-level directories) and the two FMI
    versions they are built for (CMakeLists.txt:96-100; the model.c of Feedthrough and Resource depends
    on FMI_VERSION). *)

From Coq Require Import List NArith ZArith.
From Verif Require Import Base Instance ModelIface.
From Verif Require Import FmuBouncingBall FmuDahlquist FmuStair FmuVanDerPol FmuRoberts
  FmuClocks FmuResource FmuStateSpace FmuFeedthrough.
Set Implicit Arguments.

Inductive FMU := BouncingBall | Clocks | Dahlquist | Feedthrough | Resource | Roberts | Stair
               | StateSpace | VanDerPol.

Inductive Version := FMI2 | FMI3.

Definition isFMI2 (v : Version) : bool := match v with FMI2 => true | FMI3 => false end.

(** The FMU built from one directory for one FMI version. *)
Definition model_of {F : Type} {NF : Num F} (v : Version) (f : FMU) : Model F :=
  match f with
  | BouncingBall => BouncingBall_model
  | Clocks => Clocks_model
  | Dahlquist => Dahlquist_model
  | Feedthrough => Feedthrough_model (isFMI2 v)
  | Resource => Resource_model (isFMI2 v)
  | Roberts => Roberts_model
  | Stair => Stair_model
  | StateSpace => StateSpace_model
  | VanDerPol => VanDerPol_model
  end.

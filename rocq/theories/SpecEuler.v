(** SpecEuler.v -- an importer that integrates an FMU through the Model Exchange functions of the API with
    the forward Euler method (specification for C22).  It is written with API calls only. *)
From Coq Require Import List NArith ZArith Bool.
From Verif Require Import Base Instance ModelIface Core Fmi3 Fmi2 Api Fmus SpecModes SpecOde.
Import ListNotations.
Set Implicit Arguments.

Section Importer.
  Context {F : Type} {NF : Num F} (m : Model F) (szof : N) (env : Env).
  Notation D := (md m).
  Definition call3 (o : Op3 F D) (s : Sys F D) : option (Sys F D) :=
    match exec3 m szof 0 env o s with Done (OK, _, s', _) => Some s' | _ => None end.
  Definition ask3 (o : Buf F -> nat -> Op3 F D) (n : nat) (s : Sys F D) : option (list F * Sys F D) :=
    match exec3 m szof 0 env (o (Some (repeat nzero n)) n) s with
    | Done (OK, OFloats (Some x), s', _) => Some (x, s') | _ => None end.
  (** some indicator changed between positive and non-positive *)
  Definition changed (z z' : list F) : bool :=
    existsb (fun p => (nle (fst p) nzero && nlt nzero (snd p)) || (nlt nzero (fst p) && nle (snd p) nzero)) (combine z z').

  Variables (nx nz : nat) (h : F).
  (** The previous indicators [z]; the result: the new ones and the FMU.
      x := states, dx := derivatives, states := x + h dx, time := [tm]; if an indicator changed its sign:
      Event Mode, update of the discrete states, back to Continuous-Time Mode. *)
  Definition importer_step (tm : F) (z : list F) (s : Sys F D) : option (list F * Sys F D) :=
    match ask3 O3GetContinuousStates nx s with None => None | Some (x, s) =>
    match ask3 O3GetContinuousStateDerivatives nx s with None => None | Some (dx, s) =>
    match call3 (O3SetContinuousStates (Some (euler_of h x dx)) nx) s with None => None | Some s =>
    match call3 (O3SetTime tm) s with None => None | Some s =>
    match ask3 O3GetEventIndicators nz s with None => None | Some (z', s) =>
    if changed z z' then
      match call3 O3EnterEventMode s with None => None | Some s =>
      match call3 O3UpdateDiscreteStates s with None => None | Some s =>
      match call3 O3EnterContinuousTimeMode s with None => None | Some s => ask3 O3GetEventIndicators nz s end end end
    else Some (z', s) end end end end end.
  (** [k] steps, the times of which are given by [tm] *)
  Fixpoint importer (k : nat) (tm : nat -> F) (z : list F) (s : Sys F D) : option (list F * Sys F D) :=
    match k with
    | O => Some (z, s)
    | S k => match importer_step (tm 1) z s with Some (z, s) => importer k (fun j => tm (S j)) z s | None => None end
    end.
End Importer.

(** The FMUs with continuous states. *)
Definition continuous (f : FMU) : bool :=
  match f with BouncingBall | Dahlquist | VanDerPol | Roberts | StateSpace => true | _ => false end.

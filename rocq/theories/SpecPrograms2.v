(** SpecPrograms2.v -- specification vocabulary for the comparison of the FMI 2 and the FMI 3 example program (C63). *)
From Coq Require Import List NArith ZArith Bool Arith.
From Verif Require Import Base Instance ModelIface Core Fmi3 Fmi2 Api Fmus SpecSteps SpecCross Programs.
Import ListNotations.
Set Implicit Arguments.

(** The FMUs with both builds whose recorded variables both models read (see DESIGN.md). *)
Definition observed (f : FMU) : bool := match f with BouncingBall | Dahlquist | Stair | VanDerPol => true | _ => false end.

Section SpecPrograms2.
  Context {F : Type} {NF : Num F} (f : FMU).
  Notation D2 := (md (model_of (F := F) FMI2 f)).
  Notation D3 := (md (model_of (F := F) FMI3 f)).

  (** The same line of the output file: the same time and the same values of the variables. *)
  Definition same_row (r : F * Out F D2) (r' : F * Out F D3) : Prop := fst r' = fst r /\ shown (snd r) (snd r').

  (** What the two programs return and write.  They return the same status, fmi2OK or fmi2Error.  Either they write the
      same file; or the FMU has asked to end the simulation before the stop time, and the FMI 2 program has written
      one line more: the time the FMU has reached, and the values that the FMI 3 FMU holds then as well. *)
  Definition written (szof' : N) (fuel : nat) (env : Env) (stop : F) (a : res (Status * list (F * Out F D2) * option (Sys F D2)))
             (a' : res (Status * list (F * Out F D3) * option (Sys F D3))) : Prop :=
    match a, a' with
    | Done (st, rows, Some s), Done (st', rows', Some s') =>
        st' = st /\ (st = OK \/ st = Error) /\
        (Forall2 same_row rows rows' \/
         st = OK /\ terminateSimulation (mut (sinst s)) = true /\ time_of s' = time_of s /\ Forall (fun r => nle stop (fst r) = false) rows' /\
         exists rows0 o s2' o', rows = rows0 ++ [(time_of s, o)] /\ Forall2 same_row rows0 rows' /\
           recordVariables f szof' fuel env (time_of s) s' = Done (inl tt, s2', [(time_of s, o')]) /\ shown o o')
    | UB, UB => True
    | NoFuel, NoFuel => True
    | _, _ => False
    end.

  (** The same status, fmi2OK or fmi2Error, and the same file. *)
  Definition written_same (a : res (Status * list (F * Out F D2) * option (Sys F D2))) (a' : res (Status * list (F * Out F D3) * option (Sys F D3))) : Prop :=
    match a, a' with
    | Done (st, rows, Some _), Done (st', rows', Some _) => st' = st /\ (st = OK \/ st = Error) /\ Forall2 same_row rows rows'
    | UB, UB => True
    | NoFuel, NoFuel => True
    | _, _ => False
    end.
End SpecPrograms2.

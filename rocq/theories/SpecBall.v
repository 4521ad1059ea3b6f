(** SpecBall.v -- what a program with events has to write (specification for C57, C64 and C68): each bounce with the values
    before and after it. *)
From Coq Require Import List NArith ZArith Bool.
From Verif Require Import Base Instance ModelIface Core Fmi3 Api Fmus SpecSteps SpecPrograms.
Import ListNotations.
Set Implicit Arguments.

Section SpecBall.
  Context {F : Type} {NF : Num F}.
  Local Notation "a + b" := (nadd a b).
  Local Notation "a * b" := (nmul a b).

  (** One step of the Euler method without a look at the ground. *)
  Definition glide (f : FMU) (x : list F) : list F :=
    match f, x with
    | BouncingBall, [h; v; g] => [h + nlit 1 (-3) * v; v + nlit 1 (-3) * g; g]
    | _, _ => next f x
    end.
  (** The numbers of states and of event indicators (modelDescription.xml). *)
  Definition states_of (f : FMU) : nat := match f with BouncingBall | VanDerPol => 2 | Dahlquist => 1 | _ => 0 end.
  Definition indicators_of (f : FMU) : nat := match f with BouncingBall => 1 | _ => 0 end.

  Variable f : FMU.
  (** The step after one with a bounce has no bounce, in the first [N] steps. *)
  Definition spaced (N : nat) : Prop :=
    forall k, (S k < N)%nat -> bounces f (solution f k) = true -> bounces f (solution f (S k)) = false.

  Notation Row := (F * Out F (md (model_of (F := F) FMI3 f)))%type.
  (** Just before the bounce at the end of the step that begins with the [n]-th point. *)
  Definition before_bounce (time : nat -> F) (n : nat) : Row := (time (S n), OVals TFloat64 (Some (shown f (glide f (solution f n))))).
  (** The rows of the [n]-th point: two if there is a bounce. *)
  Definition rows_at (time : nat -> F) (n : nat) : list Row :=
    (match n with
     | O => []
     | S j => if bounces f (solution f j) then [before_bounce time j] else []
     end) ++ [row f time (solution f) n].
  Definition event_rows (time : nat -> F) (N : nat) : list Row := flat_map (rows_at time) (seq 0 (S N)).
End SpecBall.

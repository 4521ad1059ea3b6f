(** SpecOwn.v -- an importer that integrates a Model Exchange FMU itself (specification for C81). *)
From Coq Require Import List NArith ZArith Bool Arith.
From Verif Require Import Base Instance ModelIface Core Fmi3 Api Fmus SpecVars SpecEqs.
Import ListNotations.
Set Implicit Arguments.

Section Euler.
  Context {F : Type} {NF : Num F} (f : FMU) (szof : N) (fuel : nat) (env : Env).
  Notation m := (model_of (F := F) FMI3 f).
  Notation call := (exec3 m szof fuel env).
  (** One step of the method with the step size [h]: the importer gets the states and their derivatives, sets the new time
      [t] and the new states.  All calls return OK. *)
  Definition euler_step (h t : F) (s s' : Sys F (md m)) : Prop :=
    exists n x dx s1 s2 s3 o3 o4 t1 t2 t3 t4,
      call (O3GetContinuousStates (Some (repeat nzero n)) n) s = Done (OK, OFloats (Some x), s1, t1) /\
      call (O3GetContinuousStateDerivatives (Some (repeat nzero n)) n) s1 = Done (OK, OFloats (Some dx), s2, t2) /\
      call (O3SetTime t) s2 = Done (OK, o3, s3, t3) /\
      call (O3SetContinuousStates (Some (map (fun p => nadd (fst p) (nmul h (snd p))) (combine x dx))) n) s3 = Done (OK, o4, s', t4).
  (** One step for each pair of a step size and a time. *)
  Inductive euler_steps : list (F * F) -> Sys F (md m) -> Sys F (md m) -> Prop :=
  | Euler_none s : euler_steps [] s s
  | Euler_more ts h t s s1 s2 : euler_steps ts s s1 -> euler_step h t s1 s2 -> euler_steps (ts ++ [(h, t)]) s s2.
  (** All variables of two instances except the time have the same values. *)
  Definition agreeing (s c : Sys F (md m)) : Prop :=
    forall vr vs, vr <> 0%N -> (get3 m szof env s TFloat64 vr vs <-> get3 m szof env c TFloat64 vr vs).
End Euler.

(** The equations of Dahlquist (x' = - k x) and VanDerPol ([vanderpol] is that of x1), one step of size [h]. *)
Section Methods.
  Context {F : Type} {NF : Num F}.
  Definition decay (h k x : F) : F := nadd x (nmul h (nmul (nopp k) x)).
  Definition swing (h mu : F) (x : F * F) : F * F :=
    (nadd (fst x) (nmul h (snd x)), nadd (snd x) (nmul h (vanderpol [fst x; snd x; mu]))).
  (** A step of each of the sizes *)
  Definition after_steps {A} (step : F -> A -> A) (hs : list F) (x : A) : A := fold_left (fun x h => step h x) hs x.
End Methods.

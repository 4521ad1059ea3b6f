(** SpecEqs.v -- the equations of the FMUs, from their documentation. *)
From Coq Require Import List NArith ZArith Bool.
From Verif Require Import Base Instance ModelIface Core Fmi3 Fmi2 Api Fmus SpecVars.
Import ListNotations.
Set Implicit Arguments.

(** The equations of the FMUs with scalar variables (the files readme.md and the descriptions in the
    model descriptions): the computed variable, its arguments and the right-hand side.  [dae] is
    the parameter of that name of Roberts. *)
Section Equations.
  Context {F : Type} {NF : Num F}.
  Notation "a + b" := (nadd a b). Notation "a - b" := (nsub a b). Notation "a * b" := (nmul a b).
  Notation one := (nlit 1 0 : F).
  Definition arg (xs : list F) (n : nat) : F := nth n xs nzero.
  Definition same (x : list F) : F := arg x 0.
  Definition dahlquist (x : list F) : F := nopp (arg x 1) * arg x 0.
  Definition vanderpol (x : list F) : F := arg x 2 * ((one - arg x 0 * arg x 0) * arg x 1) - arg x 0.
  Definition roberts1 (x : list F) : F := nopp (nlit 4 (-2)) * arg x 0 + nlit 1 4 * arg x 1 * arg x 2.
  Definition roberts2 (x : list F) : F :=
    nlit 4 (-2) * arg x 0 - nlit 1 4 * arg x 1 * arg x 2 - nlit 3 7 * arg x 1 * arg x 1.
  Definition roberts_r (x : list F) : F := arg x 0 + arg x 1 + arg x 2 - one.
  Definition roberts3 (x : list F) : F := one - arg x 0 - arg x 1.
  Definition equations (f : FMU) (dae : bool) : list (N * list N * (list F -> F)) :=
    match f with
    | BouncingBall => [(2, [3], same); (4, [5], same)]                 (* der(h) = v, der(v) = g *)
    | Dahlquist => [(2, [1; 3], dahlquist)]                            (* der(x) = -k * x *)
    | VanDerPol => [(2, [3], same); (4, [1; 3; 5], vanderpol)]         (* of x0, x1, mu *)
    | Roberts =>                                                       (* of y1, y2, y3 *)
        [(3, [2; 4; 6], roberts1); (5, [2; 4; 6], roberts2); (8, [2; 4; 6], roberts_r)] ++
        if dae then [] else [(6, [2; 4], roberts3)]
    | Feedthrough => [(8, [7], same); (10, [9], same)]
    | Clocks | Resource | Stair | StateSpace => []
    end%N.
End Equations.
(** The inputs and outputs of Feedthrough but Binary_input (31) and Binary_output (32). *)
Definition feedthrough (v : Version) : list (VType * N * N) :=
  match v with
  | FMI3 =>
      [(TFloat32, 1, 2); (TFloat32, 3, 4); (TFloat64, 7, 8); (TFloat64, 9, 10); (TInt8, 11, 12); (TUInt8, 13, 14);
       (TInt16, 15, 16); (TUInt16, 17, 18); (TInt32, 19, 20); (TUInt32, 21, 22); (TInt64, 23, 24); (TUInt64, 25, 26);
       (TBoolean, 27, 28); (TString, 29, 30); (TInt64, 33, 34)]
  | FMI2 => [(TFloat64, 7, 8); (TFloat64, 9, 10); (TInt32, 19, 20); (TBoolean, 27, 28); (TString, 29, 30); (TInt32, 33, 34)]
  end%N.

(** Calls that may change the input [u]: assignments to it, Reset and restoring a state. *)
Definition touches3 {F D} (u : N) (o : Op3 F D) : bool :=
  match o with
  | O3Set _ (Some vrs) nvr _ _ | O3SetBinary (Some vrs) nvr _ _ _ => existsb (N.eqb u) (firstn nvr vrs)
  | O3Reset | O3SetFMUState _ => true
  | _ => false
  end.
(** Reading the binary variable [vr] answers [b] (and its length). *)
Definition getBin3 {F} {NF : Num F} (m : Model F) (szof : N) (env : Env) (s : Sys F (md m)) (vr : N) (b : bytes) : Prop :=
  forall n b0, exists s' tr, exec3 m szof 0 env (O3GetBinary (Some [vr]) 1 (Some [n]) (Some [b0]) 1) s =
    Done (OK, OBin (Some [length b]) (Some [b]), s', tr).

(** FMI 2.0: calls that may change the input [u]. *)
Definition touches2 {F D} (u : N) (o : Op2 F D) : bool :=
  match o with
  | O2Set _ (Some vrs) nvr _ | O2SetBoolean (Some vrs) nvr _ => existsb (N.eqb u) (firstn nvr vrs)
  | O2Reset | O2SetFMUstate _ => true
  | _ => false
  end.
Section Read2.
  Context {F : Type} {NF : Num F} (m : Model F) (szof : N).
  Notation D := (md m).
  (** Reading the Boolean variable [vr] answers [b] (fmi2True is 1, fmi2False is 0). *)
  Definition getB2 (env : Env) (s : Sys F D) (vr : N) (b : bool) : Prop :=
    exists z s' tr, exec2 m szof 0 env (O2GetBoolean (Some [vr]) 1 (Some [z])) s =
      Done (OK, OBools2 (Some [if b then 1 else 0]%Z), s', tr).
  (** Reading a variable of any type of FMI 2.0. *)
  Definition read2 (env : Env) (s : Sys F D) (t : VType) (vr : N) : val F t -> Prop :=
    match t return val F t -> Prop with TBoolean => getB2 env s vr | t' => get2 m szof env s t' vr end.
  (** The same values are read from [s'] as from [s]. *)
  Definition reads_same2 (env : Env) (s s' : Sys F D) : Prop :=
    (forall t vr x, get2 m szof env s t vr x -> get2 m szof env s' t vr x) /\
    (forall vr b, getB2 env s vr b -> getB2 env s' vr b).
  (** Single-variable Set calls one after the other, stopped at the first one that is not OK. *)
  Fixpoint singles2 (env : Env) (t : VType) (vrs : list N) (xs : list (val F t)) (s : Sys F D)
    : res (Status * Sys F D * list (Event F)) :=
    match vrs, xs with
    | vr :: vrs', x :: xs' =>
        match exec2 m szof 0 env (O2Set t (Some [vr]) 1 (Some [x])) s with
        | Done (OK, _, s', tr) =>
            match singles2 env t vrs' xs' s' with
            | Done (st, s'', tr') => Done (st, s'', tr ++ tr')
            | UB => UB
            | NoFuel => NoFuel
            end
        | Done (st, _, s', tr) => Done (st, s', tr)
        | UB => UB
        | NoFuel => NoFuel
        end
    | _, _ => Done (OK, s, [])
    end.
End Read2.
(** The types of the FMI 2.0 functions that read and assign variables, but Boolean. *)
Definition type2 (t : VType) : bool := match t with TFloat64 | TInt32 | TString => true | _ => false end.

(** SpecVars.v -- the variables of the FMUs as their model descriptions declare them, and what it
    means to read one.  Sources: */FMI3.xml and */FMI2.xml, element ModelVariables. *)
From Coq Require Import List NArith ZArith Bool Arith.
From Verif Require Import Base Instance ModelIface Core Fmi3 Fmi2 Api Fmus.
Import ListNotations.
Set Implicit Arguments.

(** Value reference, type and the value references of the dimensions (arrays only).  An
    enumeration is an Int64 in FMI 3.0 and an Integer in FMI 2.0; Float64 is Real, Int32 is
    Integer in FMI 2.0.  Binary and Clock variables have their own functions and are not listed. *)
Definition scalars (t : VType) (l : list N) : list (N * VType * list N) := map (fun vr => (vr, t, [])) l.
Definition variables (v : Version) (f : FMU) : list (N * VType * list N) :=
  match f with
  | BouncingBall => scalars TFloat64 [0; 1; 2; 3; 4; 5; 6; 7]
  | Dahlquist => scalars TFloat64 [0; 1; 2; 3]
  | VanDerPol => scalars TFloat64 [0; 1; 2; 3; 4; 5]
  | Stair | Resource => scalars TFloat64 [0] ++ scalars TInt32 [1]
  | Roberts => scalars TFloat64 [0; 2; 3; 4; 5; 6; 7; 8; 9; 10] ++ scalars TBoolean [1]
  | Clocks => scalars TFloat64 [0] ++ scalars TInt32 [2001; 2002; 2003; 2004; 2005; 2006; 2007]
  | StateSpace =>
      scalars TFloat64 [0] ++ scalars TUInt64 [1; 2; 3] ++
      [(4, TFloat64, [2; 2]); (5, TFloat64, [2; 1]); (6, TFloat64, [3; 2]); (7, TFloat64, [3; 1]);
       (8, TFloat64, [2]); (9, TFloat64, [1]); (10, TFloat64, [3]); (11, TFloat64, [2]); (12, TFloat64, [2])]
  | Feedthrough =>
      match v with
      | FMI3 =>
          scalars TFloat64 [0; 5; 6; 7; 8; 9; 10] ++ scalars TFloat32 [1; 2; 3; 4] ++
          scalars TInt8 [11; 12] ++ scalars TUInt8 [13; 14] ++ scalars TInt16 [15; 16] ++
          scalars TUInt16 [17; 18] ++ scalars TInt32 [19; 20] ++ scalars TUInt32 [21; 22] ++
          scalars TInt64 [23; 24; 33; 34] ++ scalars TUInt64 [25; 26] ++ scalars TBoolean [27; 28] ++
          scalars TString [29; 30]
      | FMI2 =>
          scalars TFloat64 [0; 5; 6; 7; 8; 9; 10] ++ scalars TInt32 [19; 20; 33; 34] ++
          scalars TBoolean [27; 28] ++ scalars TString [29; 30]
      end
  end%N.
Definition declared (v : Version) (f : FMU) (t : VType) (vr : N) : Prop :=
  exists dims, In (vr, t, dims) (variables v f).

(** The variables a variable is computed from (ModelStructure; for Roberts and StateSpace, whose
    lists are incomplete, the equations in Roberts/readme.md and StateSpace/readme.md). *)
Definition depends (f : FMU) (vr : N) : list N :=
  match f with
  | BouncingBall => if N.eqb vr 2 then [3] else if N.eqb vr 4 then [5] else []
  | Dahlquist => if N.eqb vr 2 then [1; 3] else []
  | VanDerPol => if N.eqb vr 2 then [3] else if N.eqb vr 4 then [1; 3; 5] else []
  | Roberts => if N.eqb vr 6 then [1; 2; 4]
               else if N.eqb vr 3 || N.eqb vr 5 || N.eqb vr 8 then [1; 2; 4; 6] else []
  | StateSpace => if N.eqb vr 10 then [6; 7; 9; 11] else if N.eqb vr 12 then [4; 5; 9; 11] else []
  | Feedthrough =>
      if existsb (N.eqb vr) [2; 4; 8; 10; 12; 14; 16; 18; 20; 22; 24; 26; 28; 30; 32; 34]
      then [N.pred vr] else []
  | Stair | Resource | Clocks => []
  end%N.

(** A string that was set reads back as its characters up to the NUL. *)
Definition as_read {F} (t : VType) : val F t -> val F t :=
  match t with TString => option_map cstr | _ => fun x => x end.

Section Read.
  Context {F : Type} {NF : Num F} (m : Model F) (szof : N).
  Notation D := (md m).
  (** A Get of the variable [vr] answers [vs] (Get does not use the fuel). *)
  Definition get3 (env : Env) (s : Sys F D) (t : VType) (vr : N) (vs : list (val F t)) : Prop :=
    exists buf s' tr, length buf = length vs /\
      exec3 m szof 0 env (O3Get t (Some [vr]) 1 (Some buf) (length vs)) s = Done (OK, OVals t (Some vs), s', tr).
  Definition get2 (env : Env) (s : Sys F D) (t : VType) (vr : N) (x : val F t) : Prop :=
    exists y s' tr,
      exec2 m szof 0 env (O2Get t (Some [vr]) 1 (Some [y])) s = Done (OK, OVals t (Some [x]), s', tr).
  (** The number of values of a variable: the product of its dimensions. *)
  Definition sized (env : Env) (v : Version) (f : FMU) (s : Sys F D) (t : VType) (vr : N) (k : nat) : Prop :=
    exists dims ns, In (vr, t, dims) (variables v f) /\
      Forall2 (fun d n => get3 env s TUInt64 d [n]) dims ns /\ k = fold_right (fun n k => N.to_nat n * k) 1 ns.
  (** The same values are read from [s'] as from [s]. *)
  Definition reads_same (env : Env) (s s' : Sys F D) : Prop :=
    forall t vr vs, get3 env s t vr vs -> get3 env s' t vr vs.

  (** Single-variable Set calls one after the other, stopped at the first one that is not OK. *)
  Fixpoint singles (env : Env) (t : VType) (vrs : list N) (xs : list (val F t)) (s : Sys F D)
    : res (Status * Sys F D * list (Event F)) :=
    match vrs, xs with
    | vr :: vrs', x :: xs' =>
        match exec3 m szof 0 env (O3Set t (Some [vr]) 1 (Some [x]) 1) s with
        | Done (OK, _, s', tr) =>
            match singles env t vrs' xs' s' with
            | Done (st, s'', tr') => Done (st, s'', tr ++ tr')
            | UB => UB
            | NoFuel => NoFuel
            end
        | Done (st, _, s', tr) => Done (st, s', tr)
        | UB => UB
        | NoFuel => NoFuel
        end
    | _, _ => Done (OK, s, [])
    end.
  (** The variables whose assigned value may be overwritten before it is read (see DESIGN.md,
      findings): Boolean_output of Feedthrough; y3 of Roberts in the ODE formulation; B of StateSpace
      when it is not square. *)
  Definition stored (f : FMU) (env : Env) (s : Sys F D) (vr : N) : Prop :=
    match f with
    | Feedthrough => vr <> 28%N
    | Roberts => vr = 6%N -> get3 env s TBoolean 1 [true]
    | StateSpace => vr = 5%N -> exists n, get3 env s TUInt64 1 [n] /\ get3 env s TUInt64 2 [n]
    | _ => True
    end.
End Read.

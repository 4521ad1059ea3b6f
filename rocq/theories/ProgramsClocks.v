(** ProgramsClocks.v -- examples/scs_synchronous.c (for Clocks), over the API functions of the model; see Programs.v. *)

From Coq Require Import List NArith ZArith Bool Arith.
From Verif Require Import Base Instance ModelIface Core Fmi3 Api Fmus Programs.
Import ListNotations.
Set Implicit Arguments.

Section ProgramsClocks.
  Context {F : Type} {NF : Num F} (szof : N) (fuel : nat) (env : Env) (S : N).
  Notation m := (model_of (F := F) FMI3 Clocks).
  Notation D := (md m).
  Notation Prog := (@Prog F NF Clocks).
  Notation CALL := (CALL Clocks szof fuel env).
  Notation pret := (pret Clocks).
  Notation "'run' x '<-' p 'in' k" := (pbind p (fun x => k)) (at level 200, x pattern, p at level 100, k at level 200).
  Notation "p '>>>' k" := (pbind p (fun _ => k)) (at level 199, right associativity).

  (** 22-34; the callbacks for preemption are NULL *)
  Definition newSE :=
    fmi3InstantiateScheduledExecution m env instance1 (Some (m_token m)) None false S true true false false.

  Definition updates_clock (e : Event F) : bool := match e with EClockUpdate => true | _ => false end.
  (** 14-18: the callback; its result is countdownClocksQualifier.  It calls the FMU during
      fmi3ActivateModelPartition; clockUpdate is the last action of a partition (Clocks/model.c 41-43, 75-77, 114-116),
      so that the call is made here right after the activation. *)
  Definition cb_clockUpdate : Prog Z := fun s =>
    match exec3 m szof fuel env (O3GetIntervalDecimal (Some [1003%N]) 1 (Some [nzero]) (Some [0%Z])) s with
    | Done (_, OInterval _ (Some [q]), s', _) => Done (inl q, s', [])
    | NoFuel => NoFuel
    | _ => UB
    end.
  (** CALL(FMI3ActivateModelPartition(S, vr, time)); [q]: countdownClocksQualifier before *)
  Definition activate (vr : N) (time : nat) (q : Z) : Prog Z := fun s =>
    match exec3 m szof fuel env (O3ActivateModelPartition vr (nofN (N.of_nat time))) s with
    | Done (st, _, s1, t) =>
        match (if existsb updates_clock t then cb_clockUpdate else pret q) s1 with
        | Done (r, s2, rows) => Done (match st with OK => r | _ => inr st end, s2, rows)
        | UB => UB
        | NoFuel => NoFuel
        end
    | UB => UB
    | NoFuel => NoFuel
    end.
  (** 45-65; [n]: the remaining passes *)
  Fixpoint sync_loop (n time : nat) (q : Z) : Prog unit :=
    match n with
    | O => pret tt
    | Datatypes.S n =>
        run q <- activate 1001 time q in                                                            (* 48 *)
        run q <- (if Z.eqb (Z.rem (Z.of_nat time) 8) 0 || Z.eqb (Z.rem (Z.of_nat time - 1) 8) 0     (* 51-53 *)
                  then activate 1002 time q else pret q) in
        run q <- (if Z.eqb q 2 then activate 1003 time q >>> pret 1%Z else pret q) in               (* 55-58 *)
        CALL (O3GetClock (Some [1005%N]) 1 (Some [false])) >>>                                       (* 60 *)
        recordVariables Clocks szof fuel env (nofN (N.of_nat time)) >>>
        sync_loop n (time + 1) q
    end.
  (** 20-69; [n] is 10 in the program *)
  Definition scs_synchronous (n : nat) :=
    @program F NF Clocks szof fuel env newSE (
      CALL (O3EnterInitializationMode nzero false nzero) >>>
      CALL O3ExitInitializationMode >>>
      sync_loop n 0 0).
End ProgramsClocks.

(** SpecState.v -- specification vocabulary for saved states, getters and resets. *)
From Coq Require Import List NArith ZArith Bool.
From Verif Require Import Base Instance ModelIface Fmi3 Fmi2 Api.
Import ListNotations.
Set Implicit Arguments.

Section SpecState.
  Context {F D : Type}.

  (** A call written with handles counted from the first state saved by the caller: [n] is the
      number of states saved before. *)
  Definition rebase3 (n : nat) (o : Op3 F D) : Op3 F D :=
    let r := option_map (Nat.add n) in
    match o with
    | O3GetFMUState p h => O3GetFMUState p (r h)
    | O3SetFMUState h => O3SetFMUState (r h)
    | O3FreeFMUState p h => O3FreeFMUState p (r h)
    | O3SerializeFMUState h d z => O3SerializeFMUState (r h) d z
    | O3DeserializeFMUState b z p h => O3DeserializeFMUState b z p (r h)
    | _ => o
    end.
  Definition rebase2 (n : nat) (o : Op2 F D) : Op2 F D :=
    let r := option_map (Nat.add n) in
    match o with
    | O2GetFMUstate p h => O2GetFMUstate p (r h)
    | O2SetFMUstate h => O2SetFMUstate (r h)
    | O2FreeFMUstate p h => O2FreeFMUstate p (r h)
    | O2SerializeFMUstate h d z => O2SerializeFMUstate (r h) d z
    | O2DeSerializeFMUstate b z p h => O2DeSerializeFMUstate b z p (r h)
    | _ => o
    end.
  Definition rebases3 (n : nat) (l : list (Env * Op3 F D)) : list (Env * Op3 F D) :=
    map (fun p => (fst p, rebase3 n (snd p))) l.
  Definition rebases2 (n : nat) (l : list (Env * Op2 F D)) : list (Env * Op2 F D) :=
    map (fun p => (fst p, rebase2 n (snd p))) l.
  (** What a caller sees of a result: everything, but handles counted from [n] and serialized
      states as opaque bytes of a given size. *)
  Definition view (n : nat) (out : Out F D) : Out F D :=
    match out with
    | OHandle h => OHandle (option_map (fun k => k - n) h)
    | OBlob b => OBlob (option_map (fun b => mkBlob (bsize b) None) b)
    | _ => out
    end.
  (** The call does not free or overwrite the saved state with handle [k]. *)
  Definition spares3 (k : nat) (o : Op3 F D) : Prop :=
    match o with
    | O3GetFMUState _ (Some h) | O3FreeFMUState _ (Some h) | O3DeserializeFMUState _ _ _ (Some h) => h <> k
    | _ => True
    end.
  Definition spares2 (k : nat) (o : Op2 F D) : Prop :=
    match o with
    | O2GetFMUstate _ (Some h) | O2FreeFMUstate _ (Some h) | O2DeSerializeFMUstate _ _ _ (Some h) => h <> k
    | _ => True
    end.

  (** The functions that read variables, states or derivatives; [ck]: also clocks and intervals. *)
  Definition reads3 (ck : bool) (o : Op3 F D) : bool :=
    match o with
    | O3Get _ _ _ _ _ | O3GetBinary _ _ _ _ _ | O3GetDirectionalDerivative _ _ _ _ _ _ | O3GetAdjointDerivative _ _ _ _ _ _
    | O3GetContinuousStateDerivatives _ _ | O3GetEventIndicators _ _ | O3GetContinuousStates _ _
    | O3GetNominalsOfContinuousStates _ _ | O3GetNumberOfEventIndicators _ | O3GetNumberOfContinuousStates _
    | O3GetOutputDerivatives _ _ _ _ | O3SerializedFMUStateSize _ => true
    | O3GetClock _ _ _ | O3GetIntervalDecimal _ _ _ _ => ck
    | _ => false
    end.
  Definition reads2 (o : Op2 F D) : bool :=
    match o with
    | O2Get _ _ _ _ | O2GetBoolean _ _ _ | O2GetDirectionalDerivative _ _ _ _ _ _ | O2GetRealOutputDerivatives _ _ _ _
    | O2GetStatus _ | O2GetRealStatus _ _ | O2GetBooleanStatus _ _ | O2GetDerivatives _ _ | O2GetEventIndicators _ _
    | O2GetContinuousStates _ _ | O2GetNominals _ _ | O2SerializedFMUstateSize _ => true
    | _ => false
    end.

  Definition is_message (e : Event F) : bool := match e with ELog _ _ => true | _ => false end.
  (** The callbacks other than the logger. *)
  Definition callbacks (t : list (Event F)) : list (Event F) := filter (fun e => negb (is_message e)) t.

  (** Two runs look the same from outside: same outcome, statuses, outputs and callbacks; with
      [log], also the same messages. *)
  Definition obs_eq (log : Prop) (n n' : nat) (o o' : Status * Out F D * list (Event F)) : Prop :=
    let '(st, out, t) := o in let '(st', out', t') := o' in
    st' = st /\ view n' out' = view n out /\ callbacks t' = callbacks t /\ (log -> t' = t).
  Definition same_run (log : Prop) (n n' : nat) (a b : res (list (Status * Out F D * list (Event F)) * Sys F D)) : Prop :=
    match a, b with
    | Done (l, _), Done (l', _) => Forall2 (obs_eq log n n') l l'
    | UB, UB => True
    | NoFuel, NoFuel => True
    | _, _ => False
    end.
End SpecState.

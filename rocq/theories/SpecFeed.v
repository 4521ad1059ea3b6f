(** SpecFeed.v -- what the output file of the programs for Feedthrough is to show (C65, C66). *)
From Coq Require Import List NArith ZArith Bool Arith Reals.
From Verif Require Import Base Instance ModelIface Core Api Fmus.
Import ListNotations.

(** The values of the inputs: those the FMU starts with, those before and those from t = 1 on. *)
Inductive Phase := Initial | Low | High.
Definition pick {X : Type} (p : Phase) (a b c : X) : X := match p with Initial => a | Low => b | High => c end.

Section Rows.
  Context {F : Type} {NF : Num F}.
  Notation D3 := (md (model_of (F := F) FMI3 Feedthrough)).
  Notation D2 := (md (model_of (F := F) FMI2 Feedthrough)).
  (** ASCII *)
  Definition text (p : Phase) : bytes :=
    pick p [Byte.x53; Byte.x65; Byte.x74; Byte.x20; Byte.x6d; Byte.x65; Byte.x21]
      [Byte.x46; Byte.x4d; Byte.x49; Byte.x20; Byte.x69; Byte.x73; Byte.x20; Byte.x61; Byte.x77; Byte.x65; Byte.x73;
       Byte.x6f; Byte.x6d; Byte.x65; Byte.x21]
      [Byte.x46; Byte.x4d; Byte.x49; Byte.x20; Byte.x69; Byte.x73; Byte.x20; Byte.x73; Byte.x74; Byte.x69; Byte.x6c;
       Byte.x6c; Byte.x20; Byte.x61; Byte.x77; Byte.x65; Byte.x73; Byte.x6f; Byte.x6d; Byte.x65; Byte.x21].
  Definition foo : bytes := [Byte.x66; Byte.x6f; Byte.x6f].
  Definition bar : bytes := [Byte.x62; Byte.x61; Byte.x72].
  (** The columns of the FMI 3 file: [u] the Float64, [q] the bits of the Float32 continuous output. *)
  Definition columns3 (p : Phase) (u : F) (q : N) : list (Out F D3) :=
    [OVals TFloat32 (Some [q; pick p 0 0 (127 * 2 ^ 23)]%N);
     OVals TFloat64 (Some [u; pick p nzero nzero (nlit 1 0)]);
     OVals TInt8 (Some [pick p 0 (- 2 ^ 7) (2 ^ 7 - 1)]%Z);
     OVals TUInt8 (Some [pick p 0 0 (2 ^ 8 - 1)]%N);
     OVals TInt16 (Some [pick p 0 (- 2 ^ 15) (2 ^ 15 - 1)]%Z);
     OVals TUInt16 (Some [pick p 0 0 (2 ^ 16 - 1)]%N);
     OVals TInt32 (Some [pick p 0 (- 2 ^ 31) (2 ^ 31 - 1)]%Z);
     OVals TUInt32 (Some [pick p 0 0 (2 ^ 32 - 1)]%N);
     OVals TInt64 (Some [pick p 0 (- 2 ^ 63) (2 ^ 63 - 1); pick p 1 1 2]%Z);
     OVals TUInt64 (Some [pick p 0 0 (2 ^ 64 - 1)]%N);
     OVals TBoolean (Some [pick p false false true]);
     OVals TString (Some [Some (text p)]);
     OBin (Some [3]) (Some [pick p foo foo bar])].
  (** The columns of the FMI 2 file; [p'] is the phase of the discrete Float64 input and of the enumeration. *)
  Definition columns2 (p p' : Phase) (u : F) : list (Out F D2) :=
    [OVals TFloat64 (Some [u; pick p' nzero nzero (nlit 1 0)]);
     OVals TInt32 (Some [pick p 0 (- 2 ^ 31) (2 ^ 31 - 1); pick p' 1 1 2]%Z);
     OBools2 (Some [pick p 0 0 1]%Z);
     OVals TString (Some [Some (text p)])].

  (** The signals at the time [t]: the phase, and the continuous one (0 up to 0.5, then a ramp from 2 down to 1,
      which it keeps; [e]: the value after the event at 0.5 instead of that before). *)
  Definition phase (t : F) : Phase := if nlt t (nlit 1 0) then Low else High.
  Definition ramp (t : F) (e : bool) : F :=
    if nlt t (nlit 5 (-1)) then nzero
    else if nle t (nlit 5 (-1)) && nle (nlit 5 (-1)) t then (if e then nlit 2 0 else nzero)
    else if nle (nlit 5 (-1)) t && nlt t (nlit 1 0) then nsub (nlit 2 0) (nmul (nlit 2 0) (nsub t (nlit 5 (-1))))
    else nlit 1 0.

  (** Row n of the co-simulation: the inputs of the communication point before it. *)
  Definition cs_row3 (narrow : F -> N) (point : nat -> F) (n : nat) : F * list (Out F D3) :=
    (point n, match n with
              | O => columns3 Initial nzero 0
              | S k => columns3 (phase (point k)) (ramp (point k) false) (narrow (ramp (point k) false))
              end).
  Definition cs_row2 (point : nat -> F) (n : nat) : F * list (Out F D2) :=
    (point n, match n with
              | O => columns2 Initial Initial nzero
              | S k => columns2 (phase (point k)) Initial (ramp (point k) false)
              end).

  (** Model exchange.  At the time [t] there is an input event. *)
  Definition input_event (t : F) : bool :=
    let at_or_before x := nle t x in
    let next := if at_or_before (nlit 5 (-1)) then nlit 5 (-1) else if at_or_before (nlit 1 0) then nlit 1 0
                else if at_or_before (nlit 15 (-1)) then nlit 15 (-1) else ninf in
    nle next t.
  (** The phase before the n-th point: that of the last input event, of the start if there was none. *)
  Fixpoint last_phase (point : nat -> F) (n : nat) : Phase :=
    match n with
    | O => phase (point 0)
    | S k => if input_event (point k) then phase (point k) else last_phase point k
    end.
  (** The rows of the n-th point: one with the inputs before it; at an event one more, with those after it. *)
  Definition me_rows3 (narrow : F -> N) (point : nat -> F) (n : nat) : list (F * list (Out F D3)) :=
    let t := point n in
    (t, columns3 (last_phase point n) (ramp t false) (narrow (ramp t false))) ::
    (if input_event t then [(t, columns3 (phase t) (ramp t true) (narrow (ramp t true)))] else []).
End Rows.

(** With the exact times n / 10. *)
Definition phase_R (k : nat) : Phase := if Nat.ltb k 10 then Low else High.
Definition ramp_R (k : nat) : R := (if Nat.leb k 5 then 0 else if Nat.ltb k 10 then 3 - INR k / 5 else 1)%R.
Section Exact.
  Context {NF : Num R} (narrow : R -> N).
  Notation D3 := (md (model_of (F := R) FMI3 Feedthrough)).
  Notation D2 := (md (model_of (F := R) FMI2 Feedthrough)).
  Definition row3_R (n : nat) : R * list (Out R D3) :=
    ((INR n / 10)%R, match n with
                     | O => columns3 Initial 0%R 0
                     | S k => columns3 (phase_R k) (ramp_R k) (narrow (ramp_R k))
                     end).
  Definition row2_R (n : nat) : R * list (Out R D2) :=
    ((INR n / 10)%R, match n with
                     | O => columns2 Initial Initial 0%R
                     | S k => columns2 (phase_R k) Initial (ramp_R k)
                     end).
  (** Model exchange: the events are at 0.5, 1 and 1.5. *)
  Definition rows3_R (n : nat) : list (R * list (Out R D3)) :=
    let t := (INR n / 10)%R in
    (t, columns3 (if Nat.leb n 10 then Low else High) (ramp_R n) (narrow (ramp_R n))) ::
    (if Nat.eqb n 5 || Nat.eqb n 10 || Nat.eqb n 15
     then let u := if Nat.eqb n 5 then 2%R else ramp_R n in [(t, columns3 (phase_R n) u (narrow u))] else []).
End Exact.

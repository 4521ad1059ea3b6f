(** FmuDahlquist.v -- Dahlquist/config.h and Dahlquist/model.c.
    Line numbers refer to Dahlquist/model.c unless stated otherwise. *)

From Coq Require Import List NArith ZArith Bool Arith.
From Verif Require Import Base Instance ModelIface.
Import ListNotations.
Set Implicit Arguments.

(** config.h ValueReference *)
Inductive DAVar := DAtime | DAx | DAder_x | DAk.
Definition da_var (vr : N) : option DAVar :=
  if N.eqb vr 0 then Some DAtime else if N.eqb vr 1 then Some DAx
  else if N.eqb vr 2 then Some DAder_x else if N.eqb vr 3 then Some DAk else None.

(** config.h ModelData *)
Record DAData (F : Type) := mkDA { da_x : F; da_der_x : F; da_k : F }.
Arguments mkDA {F}. Arguments da_x {F}. Arguments da_der_x {F}. Arguments da_k {F}.
Definition set_da_x {F : Type} (v : F) (d : DAData F) : DAData F :=
  mkDA v (da_der_x d) (da_k d).
Definition set_da_der_x {F : Type} (v : F) (d : DAData F) : DAData F :=
  mkDA (da_x d) v (da_k d).
Definition set_da_k {F : Type} (v : F) (d : DAData F) : DAData F :=
  mkDA (da_x d) (da_der_x d) v.

Definition da_token : bytes :=                                         (* config.h *)
  [Byte.x7b; Byte.x32; Byte.x32; Byte.x31; Byte.x30; Byte.x36; Byte.x33; Byte.x44; Byte.x32;
     Byte.x2d; Byte.x45; Byte.x46; Byte.x34; Byte.x41; Byte.x2d; Byte.x34; Byte.x35; Byte.x46;
     Byte.x45; Byte.x2d; Byte.x42; Byte.x39; Byte.x35; Byte.x34; Byte.x2d; Byte.x42; Byte.x35;
     Byte.x42; Byte.x46; Byte.x45; Byte.x45; Byte.x41; Byte.x39; Byte.x41; Byte.x35; Byte.x39;
     Byte.x42; Byte.x7d].

Section Dahlquist.
  Context {F : Type} {NF : Num F}.
  Open Scope mf_scope.
  Notation MF := (MF F (DAData F)).

  Definition da_zero : DAData F := mkDA nzero nzero nzero.             (* calloc *)

  (** 5-14 *)
  Definition da_setStartValues : MF Status :=
    mmodd (fun d => set_da_k (nlit 1 0) (set_da_x (nlit 1 0) d)) >>
    mmod (set_dirty true) >> mret OK.

  (** 19 *)
  Definition da_calc (d : DAData F) : DAData F := set_da_der_x (nmul (nopp (da_k d)) (da_x d)) d.
  (** 16-24 *)
  Definition da_calculateValues : MF Status := mmodd da_calc >> mmod (set_dirty false) >> mret OK.

  (** 26-54 *)
  Definition da_getFloat64 (vr : N) (values : Buf F) (nValues index : nat) : MF (GetRes F) :=
    nnGet values index (
    da_calculateValues >>
    do c <- mctl in
    do d <- mdata in
    match da_var vr with
    | Some DAtime => put1 values nValues index (time c)
    | Some DAx => put1 values nValues index (da_x d)
    | Some DAder_x => put1 values nValues index (da_der_x d)
    | Some DAk => put1 values nValues index (da_k d)
    | None => failGet values index
    end).

  (** 56-84 *)
  Definition da_setFloat64 (vr : N) (values : Buf F) (nValues index : nat) : MF SetRes :=
    nnSet values index (
    do c <- mctl in
    thenDirty (
    match da_var vr with
    | Some DAx => take1 values nValues index set_da_x
    | Some DAk =>                                                      (* 66-75 *)
        if isME (itype c) && negb (inModes [Instantiated; InitializationMode] (mode c))
        then failSet index
        else take1 values nValues index set_da_k
    | _ => failSet index
    end)).

  (** 91-101 *)
  Definition da_getContinuousStates (x : Buf F) (nx : nat) : MF (Status * Buf F) :=
    arrGet x nx 1 (
    da_calculateValues >>
    do d <- mdata in
    do x' <- writel x 0 [da_x d] in
    mret (OK, x')).

  (** 103-113 *)
  Definition da_getNominals (x : Buf F) (nx : nat) : MF (Status * Buf F) :=
    arrGet x nx 1 (
    da_calculateValues >>
    do x' <- writel x 0 [nlit 1 0] in
    mret (OK, x')).

  (** 115-125 *)
  Definition da_setContinuousStates (x : Buf F) (nx : nat) : MF Status :=
    arrSet x nx 1 (
    do v <- mrd x 0 in
    mmodd (set_da_x v) >>
    mmod (set_dirty true) >> mret OK).

  (** 127-137 *)
  Definition da_getDerivatives (dx : Buf F) (nx : nat) : MF (Status * Buf F) :=
    arrGet dx nx 1 (
    da_calculateValues >>
    do d <- mdata in
    do dx' <- writel dx 0 [da_der_x d] in
    mret (OK, dx')).

  Definition Dahlquist_model : Model F := {|
    md := DAData F; md0 := da_zero; m_token := da_token;
    m_modelExchange := true; m_scheduled := false;                     (* config.h *)
    m_eventUpdate := false; m_outputDerivative := false;
    m_maxX := 1; m_maxZ := 0; m_step := nlit 1 (-1);
    m_setStartValues := da_setStartValues;
    m_calculateValues := da_calculateValues;
    m_get := fun t => match t return N -> Buf (val F t) -> nat -> nat -> MF (GetRes (val F t)) with
                      | TFloat64 => da_getFloat64
                      | _ => get_not_allowed
                      end;
    m_set := fun t => match t return N -> Buf (val F t) -> nat -> nat -> MF SetRes with
                      | TFloat64 => da_setFloat64
                      | _ => set_not_allowed
                      end;
    m_getBinary := getBinary_default; m_setBinary := setBinary_default;
    m_activateClock := activateClock_default; m_getClock := getClock_default;
    m_getInterval := getInterval_default; m_activateModelPartition := activate_default;
    m_nz := fun _ => 0;                                  (* default, cosimulation.c:529-534 *)
    m_nx := fun _ => 1;                                                (* 86-89 *)
    m_getContinuousStates := da_getContinuousStates; m_getNominals := da_getNominals;
    m_setContinuousStates := da_setContinuousStates; m_getDerivatives := da_getDerivatives;
    m_getEventIndicators := indicators_default;
    m_getOutputDerivative := outputDerivative_absent;
    m_getPartialDerivative := partial_default;
    m_eventUpdateF := eventUpdate_absent |}.
End Dahlquist.

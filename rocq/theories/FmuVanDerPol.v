(** FmuVanDerPol.v -- VanDerPol/config.h and VanDerPol/model.c.
    Line numbers refer to VanDerPol/model.c unless stated otherwise.  [eventUpdate]
    (179-188) is not called: config.h does not define EVENT_UPDATE. *)

From Coq Require Import List NArith ZArith Bool Arith.
From Verif Require Import Base Instance ModelIface.
Import ListNotations.
Set Implicit Arguments.

(** config.h ValueReference *)
Inductive VPVar := VPtime | VPx0 | VPder_x0 | VPx1 | VPder_x1 | VPmu.
Definition vp_var (vr : N) : option VPVar :=
  if N.eqb vr 0 then Some VPtime else if N.eqb vr 1 then Some VPx0
  else if N.eqb vr 2 then Some VPder_x0 else if N.eqb vr 3 then Some VPx1
  else if N.eqb vr 4 then Some VPder_x1 else if N.eqb vr 5 then Some VPmu else None.

(** config.h ModelData *)
Record VPData (F : Type) := mkVP { vp_x0 : F; vp_der_x0 : F; vp_x1 : F; vp_der_x1 : F; vp_mu : F }.
Arguments mkVP {F}. Arguments vp_x0 {F}. Arguments vp_der_x0 {F}. Arguments vp_x1 {F}.
Arguments vp_der_x1 {F}. Arguments vp_mu {F}.
Definition set_vp_x0 {F : Type} (v : F) (d : VPData F) : VPData F :=
  mkVP v (vp_der_x0 d) (vp_x1 d) (vp_der_x1 d) (vp_mu d).
Definition set_vp_der_x0 {F : Type} (v : F) (d : VPData F) : VPData F :=
  mkVP (vp_x0 d) v (vp_x1 d) (vp_der_x1 d) (vp_mu d).
Definition set_vp_x1 {F : Type} (v : F) (d : VPData F) : VPData F :=
  mkVP (vp_x0 d) (vp_der_x0 d) v (vp_der_x1 d) (vp_mu d).
Definition set_vp_der_x1 {F : Type} (v : F) (d : VPData F) : VPData F :=
  mkVP (vp_x0 d) (vp_der_x0 d) (vp_x1 d) v (vp_mu d).
Definition set_vp_mu {F : Type} (v : F) (d : VPData F) : VPData F :=
  mkVP (vp_x0 d) (vp_der_x0 d) (vp_x1 d) (vp_der_x1 d) v.

Definition vp_token : bytes :=                                         (* config.h *)
  [Byte.x7b; Byte.x42; Byte.x44; Byte.x34; Byte.x30; Byte.x33; Byte.x35; Byte.x39; Byte.x36;
     Byte.x2d; Byte.x33; Byte.x31; Byte.x36; Byte.x36; Byte.x2d; Byte.x34; Byte.x32; Byte.x33;
     Byte.x32; Byte.x2d; Byte.x41; Byte.x42; Byte.x43; Byte.x32; Byte.x2d; Byte.x31; Byte.x33;
     Byte.x32; Byte.x42; Byte.x44; Byte.x46; Byte.x37; Byte.x33; Byte.x45; Byte.x36; Byte.x34;
     Byte.x34; Byte.x7d].

Section VanDerPol.
  Context {F : Type} {NF : Num F}.
  Open Scope mf_scope.
  Notation MF := (MF F (VPData F)).

  Definition vp_zero : VPData F := mkVP nzero nzero nzero nzero nzero. (* calloc *)

  (** 5-15 *)
  Definition vp_setStartValues : MF Status :=
    mmodd (fun d => set_vp_mu (nlit 1 0) (set_vp_x1 nzero (set_vp_x0 (nlit 2 0) d))) >>
    mmod (set_dirty true) >> mret OK.

  (** 20-21 *)
  Definition vp_calc (d : VPData F) : VPData F :=
    set_vp_der_x1
      (nsub (nmul (vp_mu d) (nmul (nsub (nlit 1 0) (nmul (vp_x0 d) (vp_x0 d))) (vp_x1 d))) (vp_x0 d))
      (set_vp_der_x0 (vp_x1 d) d).
  (** 17-26 *)
  Definition vp_calculateValues : MF Status := mmodd vp_calc >> mmod (set_dirty false) >> mret OK.

  (** 28-64 *)
  Definition vp_getFloat64 (vr : N) (values : Buf F) (nValues index : nat) : MF (GetRes F) :=
    nnGet values index (
    vp_calculateValues >>
    do c <- mctl in
    do d <- mdata in
    match vp_var vr with
    | Some VPtime => put1 values nValues index (time c)
    | Some VPx0 => put1 values nValues index (vp_x0 d)
    | Some VPder_x0 => put1 values nValues index (vp_der_x0 d)
    | Some VPx1 => put1 values nValues index (vp_x1 d)
    | Some VPder_x1 => put1 values nValues index (vp_der_x1 d)
    | Some VPmu => put1 values nValues index (vp_mu d)
    | None => failGet values index
    end).

  (** 66-99 *)
  Definition vp_setFloat64 (vr : N) (values : Buf F) (nValues index : nat) : MF SetRes :=
    nnSet values index (
    do c <- mctl in
    thenDirty (
    match vp_var vr with
    | Some VPx0 => take1 values nValues index set_vp_x0
    | Some VPx1 => take1 values nValues index set_vp_x1
    | Some VPmu =>                                                     (* 80-90 *)
        if isME (itype c) && negb (inModes [Instantiated; InitializationMode; EventMode] (mode c))
        then failSet index
        else take1 values nValues index set_vp_mu
    | _ => failSet index
    end)).

  (** 106-117 *)
  Definition vp_getContinuousStates (x : Buf F) (nx : nat) : MF (Status * Buf F) :=
    arrGet x nx 2 (
    vp_calculateValues >>
    do d <- mdata in
    do x' <- writel x 0 [vp_x0 d; vp_x1 d] in
    mret (OK, x')).

  (** 119-130 *)
  Definition vp_getNominals (x : Buf F) (nx : nat) : MF (Status * Buf F) :=
    arrGet x nx 2 (
    vp_calculateValues >>
    do x' <- writel x 0 [nlit 1 0; nlit 1 0] in
    mret (OK, x')).

  (** 132-143 *)
  Definition vp_setContinuousStates (x : Buf F) (nx : nat) : MF Status :=
    arrSet x nx 2 (
    do a <- mrd x 0 in
    do b <- mrd x 1 in
    mmodd (fun d => set_vp_x1 b (set_vp_x0 a d)) >>
    mmod (set_dirty true) >> mret OK).

  (** 145-156 *)
  Definition vp_getDerivatives (dx : Buf F) (nx : nat) : MF (Status * Buf F) :=
    arrGet dx nx 2 (
    vp_calculateValues >>
    do d <- mdata in
    do dx' <- writel dx 0 [vp_der_x0 d; vp_der_x1 d] in
    mret (OK, dx')).

  (** 162-174; integer literals are converted to double *)
  Definition vp_partial (c : Ctl F) (d : VPData F) (unknown known : N) : F :=
    match vp_var unknown, vp_var known with
    | Some VPder_x0, Some VPx0 => nzero
    | Some VPder_x0, Some VPx1 => nlit 1 0
    | Some VPder_x1, Some VPx0 =>
        nsub (nmul (nmul (nmul (nlit (-2) 0) (vp_x0 d)) (vp_x1 d)) (vp_mu d)) (nlit 1 0)
    | Some VPder_x1, Some VPx1 => nmul (vp_mu d) (nsub (nlit 1 0) (nmul (vp_x0 d) (vp_x0 d)))
    | Some VPder_x1, Some VPmu =>
        if ModelState_eqb (mode c) InitializationMode
        then nmul (nsub (nlit 1 0) (nmul (vp_x0 d) (vp_x0 d))) (vp_x1 d)
        else nzero
    | _, _ => nzero
    end.
  (** 158-177 *)
  Definition vp_getPartialDerivative (unknown known : N) : MF (Status * F) :=
    do c <- mctl in
    do d <- mdata in
    mret (OK, vp_partial c d unknown known).

  Definition VanDerPol_model : Model F := {|
    md := VPData F; md0 := vp_zero; m_token := vp_token;
    m_modelExchange := true; m_scheduled := false;                     (* config.h *)
    m_eventUpdate := false; m_outputDerivative := false;
    m_maxX := 2; m_maxZ := 0; m_step := nlit 1 (-2);
    m_setStartValues := vp_setStartValues;
    m_calculateValues := vp_calculateValues;
    m_get := fun t => match t return N -> Buf (val F t) -> nat -> nat -> MF (GetRes (val F t)) with
                      | TFloat64 => vp_getFloat64
                      | _ => get_not_allowed
                      end;
    m_set := fun t => match t return N -> Buf (val F t) -> nat -> nat -> MF SetRes with
                      | TFloat64 => vp_setFloat64
                      | _ => set_not_allowed
                      end;
    m_getBinary := getBinary_default; m_setBinary := setBinary_default;
    m_activateClock := activateClock_default; m_getClock := getClock_default;
    m_getInterval := getInterval_default; m_activateModelPartition := activate_default;
    m_nz := fun _ => 0;                                  (* default, cosimulation.c:529-534 *)
    m_nx := fun _ => 2;                                                (* 101-104 *)
    m_getContinuousStates := vp_getContinuousStates; m_getNominals := vp_getNominals;
    m_setContinuousStates := vp_setContinuousStates; m_getDerivatives := vp_getDerivatives;
    m_getEventIndicators := indicators_default;
    m_getOutputDerivative := outputDerivative_absent;
    m_getPartialDerivative := vp_getPartialDerivative;
    m_eventUpdateF := eventUpdate_absent |}.
End VanDerPol.

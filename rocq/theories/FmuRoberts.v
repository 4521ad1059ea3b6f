(** FmuRoberts.v -- Roberts/config.h and Roberts/model.c.
    Line numbers refer to Roberts/model.c unless stated otherwise. *)

From Coq Require Import List NArith ZArith Bool Arith.
From Verif Require Import Base Instance ModelIface.
Import ListNotations.
Set Implicit Arguments.

(** config.h ValueReference *)
Inductive ROVar := ROtime | ROdae | ROy1 | ROder_y1 | ROy2 | ROder_y2 | ROy3 | ROy3_nominal
                 | ROr | ROg1 | ROg2.
Definition ro_var (vr : N) : option ROVar :=
  if N.eqb vr 0 then Some ROtime else if N.eqb vr 1 then Some ROdae
  else if N.eqb vr 2 then Some ROy1 else if N.eqb vr 3 then Some ROder_y1
  else if N.eqb vr 4 then Some ROy2 else if N.eqb vr 5 then Some ROder_y2
  else if N.eqb vr 6 then Some ROy3 else if N.eqb vr 7 then Some ROy3_nominal
  else if N.eqb vr 8 then Some ROr else if N.eqb vr 9 then Some ROg1
  else if N.eqb vr 10 then Some ROg2 else None.

(** config.h ModelData *)
Record ROData (F : Type) := mkRO {
  ro_dae : bool; ro_y1 : F; ro_der_y1 : F; ro_y2 : F; ro_der_y2 : F; ro_y3 : F; ro_r : F;
  ro_g1 : F; ro_g2 : F }.
Arguments mkRO {F}. Arguments ro_dae {F}. Arguments ro_y1 {F}. Arguments ro_der_y1 {F}.
Arguments ro_y2 {F}. Arguments ro_der_y2 {F}. Arguments ro_y3 {F}. Arguments ro_r {F}.
Arguments ro_g1 {F}. Arguments ro_g2 {F}.
Definition set_ro_dae {F : Type} (v : bool) (d : ROData F) : ROData F :=
  mkRO v (ro_y1 d) (ro_der_y1 d) (ro_y2 d) (ro_der_y2 d) (ro_y3 d) (ro_r d) (ro_g1 d) (ro_g2 d).
Definition set_ro_y1 {F : Type} (v : F) (d : ROData F) : ROData F :=
  mkRO (ro_dae d) v (ro_der_y1 d) (ro_y2 d) (ro_der_y2 d) (ro_y3 d) (ro_r d) (ro_g1 d) (ro_g2 d).
Definition set_ro_der_y1 {F : Type} (v : F) (d : ROData F) : ROData F :=
  mkRO (ro_dae d) (ro_y1 d) v (ro_y2 d) (ro_der_y2 d) (ro_y3 d) (ro_r d) (ro_g1 d) (ro_g2 d).
Definition set_ro_y2 {F : Type} (v : F) (d : ROData F) : ROData F :=
  mkRO (ro_dae d) (ro_y1 d) (ro_der_y1 d) v (ro_der_y2 d) (ro_y3 d) (ro_r d) (ro_g1 d) (ro_g2 d).
Definition set_ro_der_y2 {F : Type} (v : F) (d : ROData F) : ROData F :=
  mkRO (ro_dae d) (ro_y1 d) (ro_der_y1 d) (ro_y2 d) v (ro_y3 d) (ro_r d) (ro_g1 d) (ro_g2 d).
Definition set_ro_y3 {F : Type} (v : F) (d : ROData F) : ROData F :=
  mkRO (ro_dae d) (ro_y1 d) (ro_der_y1 d) (ro_y2 d) (ro_der_y2 d) v (ro_r d) (ro_g1 d) (ro_g2 d).
Definition set_ro_r {F : Type} (v : F) (d : ROData F) : ROData F :=
  mkRO (ro_dae d) (ro_y1 d) (ro_der_y1 d) (ro_y2 d) (ro_der_y2 d) (ro_y3 d) v (ro_g1 d) (ro_g2 d).
Definition set_ro_g1 {F : Type} (v : F) (d : ROData F) : ROData F :=
  mkRO (ro_dae d) (ro_y1 d) (ro_der_y1 d) (ro_y2 d) (ro_der_y2 d) (ro_y3 d) (ro_r d) v (ro_g2 d).
Definition set_ro_g2 {F : Type} (v : F) (d : ROData F) : ROData F :=
  mkRO (ro_dae d) (ro_y1 d) (ro_der_y1 d) (ro_y2 d) (ro_der_y2 d) (ro_y3 d) (ro_r d) (ro_g1 d) v.

Definition ro_token : bytes :=                                         (* config.h *)
  [Byte.x7b; Byte.x31; Byte.x41; Byte.x45; Byte.x35; Byte.x45; Byte.x31; Byte.x30; Byte.x44;
     Byte.x2d; Byte.x39; Byte.x35; Byte.x32; Byte.x31; Byte.x2d; Byte.x34; Byte.x44; Byte.x45;
     Byte.x33; Byte.x2d; Byte.x38; Byte.x30; Byte.x42; Byte.x39; Byte.x2d; Byte.x44; Byte.x30;
     Byte.x45; Byte.x41; Byte.x41; Byte.x41; Byte.x37; Byte.x44; Byte.x35; Byte.x41; Byte.x46;
     Byte.x32; Byte.x7d].

Section Roberts.
  Context {F : Type} {NF : Num F}.
  Open Scope mf_scope.
  Notation MF := (MF F (ROData F)).

  Definition ro_zero : ROData F :=                                     (* calloc *)
    mkRO false nzero nzero nzero nzero nzero nzero nzero nzero.

  (** 8-19 *)
  Definition ro_setStartValues : MF Status :=
    mmodd (fun d => set_ro_dae false (set_ro_y3 nzero (set_ro_y2 nzero (set_ro_y1 (nlit 1 0) d)))) >>
    mmod (set_dirty true) >> mret OK.

  (** 24-31 *)
  Definition ro_alg (d : ROData F) : ROData F :=                       (* 24-26 *)
    if ro_dae d then d
    else set_ro_y3 (nsub (nsub (nlit 1 0) (ro_y1 d)) (ro_y2 d)) d.
  Definition ro_ders (d : ROData F) : ROData F :=                      (* 28-31 *)
    let y1 := ro_y1 d in let y2 := ro_y2 d in let y3 := ro_y3 d in
    let a := nmul (nmul (nlit 1 4) y2) y3 in
    set_ro_r (nsub (nadd (nadd y1 y2) y3) (nlit 1 0))
    (set_ro_der_y2 (nsub (nsub (nmul (nlit 4 (-2)) y1) a) (nmul (nmul (nlit 3 7) y2) y2))
    (set_ro_der_y1 (nadd (nmul (nopp (nlit 4 (-2))) y1) a) d)).
  Definition ro_calc (d : ROData F) : ROData F := ro_ders (ro_alg d).
  (** 21-36 *)
  Definition ro_calculateValues : MF Status := mmodd ro_calc >> mmod (set_dirty false) >> mret OK.

  (** 38-90 *)
  Definition ro_getFloat64 (vr : N) (values : Buf F) (nValues index : nat) : MF (GetRes F) :=
    nnGet values index (
    ro_calculateValues >>
    do c <- mctl in
    do d <- mdata in
    match ro_var vr with
    | Some ROtime => put1 values nValues index (time c)
    | Some ROy1 => put1 values nValues index (ro_y1 d)
    | Some ROder_y1 => put1 values nValues index (ro_der_y1 d)
    | Some ROy2 => put1 values nValues index (ro_y2 d)
    | Some ROder_y2 => put1 values nValues index (ro_der_y2 d)
    | Some ROy3 => put1 values nValues index (ro_y3 d)
    | Some ROy3_nominal => put1 values nValues index (nlit 1 (-2))
    | Some ROr => put1 values nValues index (ro_r d)
    | Some ROg1 => put1 values nValues index (ro_g1 d)
    | Some ROg2 => put1 values nValues index (ro_g2 d)
    | _ => failGet values index
    end).

  (** 92-118 *)
  Definition ro_setFloat64 (vr : N) (values : Buf F) (nValues index : nat) : MF SetRes :=
    nnSet values index (
    thenDirty (
    match ro_var vr with
    | Some ROy1 => take1 values nValues index set_ro_y1
    | Some ROy2 => take1 values nValues index set_ro_y2
    | Some ROy3 => take1 values nValues index set_ro_y3
    | _ => failSet index
    end)).

  (** 120-138 *)
  Definition ro_getBoolean (vr : N) (values : Buf bool) (nValues index : nat) : MF (GetRes bool) :=
    nnGet values index (
    ro_calculateValues >>
    do d <- mdata in
    match ro_var vr with
    | Some ROdae => put1 values nValues index (ro_dae d)
    | _ => failGet values index
    end).

  (** 140-158 *)
  Definition ro_setBoolean (vr : N) (values : Buf bool) (nValues index : nat) : MF SetRes :=
    nnSet values index (
    thenDirty (
    match ro_var vr with
    | Some ROdae => take1 values nValues index set_ro_dae
    | _ => failSet index
    end)).

  (** 176-196 *)
  Definition ro_partial (d : ROData F) (unknown known : N) : F :=
    match ro_var unknown, ro_var known with
    | Some ROder_y1, Some ROy1 => nopp (nlit 4 (-2))
    | Some ROder_y1, Some ROy2 => nmul (nlit 1 4) (ro_y3 d)
    | Some ROder_y1, Some ROy3 => nmul (nlit 1 4) (ro_y2 d)
    | Some ROder_y2, Some ROy1 => nlit 4 (-2)
    | Some ROder_y2, Some ROy2 =>
        nsub (nmul (nopp (nlit 1 4)) (ro_y3 d)) (nmul (nlit 6 7) (ro_y2 d))
    | Some ROder_y2, Some ROy3 => nmul (nopp (nlit 1 4)) (ro_y2 d)
    | Some ROr, Some ROy1 => nlit 1 0
    | Some ROr, Some ROy2 => nlit 1 0
    | Some ROr, Some ROy3 => nlit 1 0
    | _, _ => nzero
    end.
  (** 170-199 *)
  Definition ro_getPartialDerivative (unknown known : N) : MF (Status * F) :=
    ro_calculateValues >>
    do d <- mdata in
    mret (OK, ro_partial d unknown known).

  (** 201-212 *)
  Definition ro_getContinuousStates (x : Buf F) (nx : nat) : MF (Status * Buf F) :=
    arrGet x nx 2 (
    ro_calculateValues >>
    do d <- mdata in
    do x' <- writel x 0 [ro_y1 d; ro_y2 d] in
    mret (OK, x')).

  (** 214-225 *)
  Definition ro_getNominals (x : Buf F) (nx : nat) : MF (Status * Buf F) :=
    arrGet x nx 2 (
    ro_calculateValues >>
    do x' <- writel x 0 [nlit 1 (-4); nlit 1 (-2)] in
    mret (OK, x')).

  (** 227-238 *)
  Definition ro_setContinuousStates (x : Buf F) (nx : nat) : MF Status :=
    arrSet x nx 2 (
    do a <- mrd x 0 in
    do b <- mrd x 1 in
    mmodd (fun d => set_ro_y2 b (set_ro_y1 a d)) >>
    mmod (set_dirty true) >> mret OK).

  (** 240-251 *)
  Definition ro_getDerivatives (dx : Buf F) (nx : nat) : MF (Status * Buf F) :=
    arrGet dx nx 2 (
    ro_calculateValues >>
    do d <- mdata in
    do dx' <- writel dx 0 [ro_der_y1 d; ro_der_y2 d] in
    mret (OK, dx')).

  (** 253-264 *)
  Definition ro_getEventIndicators (z : Buf F) (nz : nat) : MF (Status * Buf F) :=
    arrGet z nz 2 (
    ro_calculateValues >>
    do d <- mdata in
    do z' <- writel z 0 [nsub (ro_y1 d) (nlit 1 (-4)); nsub (ro_y3 d) (nlit 1 (-2))] in
    mret (OK, z')).

  Definition Roberts_model : Model F := {|
    md := ROData F; md0 := ro_zero; m_token := ro_token;
    m_modelExchange := true; m_scheduled := false;                     (* config.h *)
    m_eventUpdate := false; m_outputDerivative := false;
    m_maxX := 2; m_maxZ := 2; m_step := nlit 1 (-6);
    m_setStartValues := ro_setStartValues;
    m_calculateValues := ro_calculateValues;
    m_get := fun t => match t return N -> Buf (val F t) -> nat -> nat -> MF (GetRes (val F t)) with
                      | TFloat64 => ro_getFloat64
                      | TBoolean => ro_getBoolean
                      | _ => get_not_allowed
                      end;
    m_set := fun t => match t return N -> Buf (val F t) -> nat -> nat -> MF SetRes with
                      | TFloat64 => ro_setFloat64
                      | TBoolean => ro_setBoolean
                      | _ => set_not_allowed
                      end;
    m_getBinary := getBinary_default; m_setBinary := setBinary_default;
    m_activateClock := activateClock_default; m_getClock := getClock_default;
    m_getInterval := getInterval_default; m_activateModelPartition := activate_default;
    m_nz := fun _ => 2;                                                (* 165-168 *)
    m_nx := fun _ => 2;                                                (* 160-163 *)
    m_getContinuousStates := ro_getContinuousStates; m_getNominals := ro_getNominals;
    m_setContinuousStates := ro_setContinuousStates; m_getDerivatives := ro_getDerivatives;
    m_getEventIndicators := ro_getEventIndicators;
    m_getOutputDerivative := outputDerivative_absent;
    m_getPartialDerivative := ro_getPartialDerivative;
    m_eventUpdateF := eventUpdate_absent |}.
End Roberts.

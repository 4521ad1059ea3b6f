(** FmuBouncingBall.v -- BouncingBall/config.h and BouncingBall/model.c.
    Line numbers refer to BouncingBall/model.c unless stated otherwise. *)

From Coq Require Import List NArith ZArith Bool Arith.
From Verif Require Import Base Instance ModelIface.
Import ListNotations.
Set Implicit Arguments.

(** config.h:21-23 ValueReference *)
Inductive BBVar := BBtime | BBh | BBder_h | BBv | BBder_v | BBg | BBe | BBv_min.
Definition bb_var (vr : N) : option BBVar :=
  if N.eqb vr 0 then Some BBtime else if N.eqb vr 1 then Some BBh
  else if N.eqb vr 2 then Some BBder_h else if N.eqb vr 3 then Some BBv
  else if N.eqb vr 4 then Some BBder_v else if N.eqb vr 5 then Some BBg
  else if N.eqb vr 6 then Some BBe else if N.eqb vr 7 then Some BBv_min else None.

(** config.h ModelData *)
Record BBData (F : Type) := mkBB { bb_h : F; bb_v : F; bb_g : F; bb_e : F }.
Arguments mkBB {F}. Arguments bb_h {F}. Arguments bb_v {F}. Arguments bb_g {F}. Arguments bb_e {F}.
Definition set_bb_h {F : Type} (v : F) (d : BBData F) : BBData F :=
  mkBB v (bb_v d) (bb_g d) (bb_e d).
Definition set_bb_v {F : Type} (v : F) (d : BBData F) : BBData F :=
  mkBB (bb_h d) v (bb_g d) (bb_e d).
Definition set_bb_g {F : Type} (v : F) (d : BBData F) : BBData F :=
  mkBB (bb_h d) (bb_v d) v (bb_e d).
Definition set_bb_e {F : Type} (v : F) (d : BBData F) : BBData F :=
  mkBB (bb_h d) (bb_v d) (bb_g d) v.

Definition bb_token : bytes :=                                         (* config.h:6 *)
  [Byte.x7b; Byte.x31; Byte.x41; Byte.x45; Byte.x35; Byte.x45; Byte.x31; Byte.x30; Byte.x44;
     Byte.x2d; Byte.x39; Byte.x35; Byte.x32; Byte.x31; Byte.x2d; Byte.x34; Byte.x44; Byte.x45;
     Byte.x33; Byte.x2d; Byte.x38; Byte.x30; Byte.x42; Byte.x39; Byte.x2d; Byte.x44; Byte.x30;
     Byte.x45; Byte.x41; Byte.x41; Byte.x41; Byte.x37; Byte.x44; Byte.x35; Byte.x41; Byte.x46;
     Byte.x31; Byte.x7d].

Section BouncingBall.
  Context {F : Type} {NF : Num F}.
  Open Scope mf_scope.
  Notation MF := (MF F (BBData F)).

  Definition V_MIN : F := nlit 1 (-1).                                 (* 6 *)
  Definition EVENT_EPSILON : F := nlit 1 (-10).                        (* 7 *)
  Definition bb_zero : BBData F := mkBB nzero nzero nzero nzero.       (* calloc *)
  Definition bb_step : F := nlit 1 (-3).                               (* config.h FIXED_SOLVER_STEP *)

  (** 10-21 *)
  Definition bb_setStartValues : MF Status :=
    mmodd (fun _ => mkBB (nlit 1 0) nzero (nopp (nlit 981 (-2))) (nlit 7 (-1))) >>
    mmod (set_dirty true) >> mret OK.

  (** 23-29 *)
  Definition bb_calculateValues : MF Status := mmod (set_dirty false) >> mret OK.

  (** 31-69 *)
  Definition bb_getFloat64 (vr : N) (values : Buf F) (nValues index : nat) : MF (GetRes F) :=
    nnGet values index (
    bb_calculateValues >>
    do c <- mctl in
    do d <- mdata in
    match bb_var vr with
    | Some BBtime => put1 values nValues index (time c)
    | Some BBh => put1 values nValues index (bb_h d)
    | Some BBder_h | Some BBv => put1 values nValues index (bb_v d)
    | Some BBder_v | Some BBg => put1 values nValues index (bb_g d)
    | Some BBe => put1 values nValues index (bb_e d)
    | Some BBv_min => put1 values nValues index V_MIN
    | None => failGet values index
    end).

  (** 71-137 *)
  Definition bb_setFloat64 (vr : N) (values : Buf F) (nValues index : nat) : MF SetRes :=
    nnSet values index (
    do c <- mctl in
    thenDirty (
    match bb_var vr with
    | Some BBh =>                                                      (* 78-88 *)
        if negb (inModes [Instantiated; InitializationMode; ContinuousTimeMode; EventMode] (mode c))
        then failSet index
        else take1 values nValues index set_bb_h
    | Some BBv =>                                                      (* 90-100 *)
        if negb (inModes [Instantiated; InitializationMode; ContinuousTimeMode; EventMode] (mode c))
        then failSet index
        else take1 values nValues index set_bb_v
    | Some BBg =>                                                      (* 102-111 *)
        if isME (itype c) && negb (inModes [Instantiated; InitializationMode] (mode c))
        then failSet index
        else take1 values nValues index set_bb_g
    | Some BBe =>                                                      (* 113-123 *)
        if isME (itype c) && negb (inModes [Instantiated; InitializationMode; EventMode] (mode c))
        then failSet index
        else take1 values nValues index set_bb_e
    | Some BBv_min => failSet index                                    (* 125-127 *)
    | _ => failSet index
    end)).

  (** 139-160 *)
  Definition bb_getOutputDerivative (isnull : bool) (vr : N) (order : Z) : MF (Status * option F) :=
    if negb (Z.eqb order 1) then mlogError >> mret (Error, None)
    else if isnull then mlogError >> mret (Error, None)
    else
      bb_calculateValues >>
      do d <- mdata in
      match bb_var vr with
      | Some BBh => mret (OK, Some (bb_v d))
      | Some BBv => mret (OK, Some (bb_g d))
      | _ => mlogError >> mret (Error, None)
      end.

  (** 165-179: the bounce *)
  Definition bb_bounces (d : BBData F) : bool := nle (bb_h d) nzero && nlt (bb_v d) nzero.
  Definition bb_bounce (d : BBData F) : BBData F :=
    let v := nmul (nopp (bb_v d)) (bb_e d) in
    if nlt v V_MIN
    then mkBB ndblmin nzero nzero (bb_e d)
    else mkBB ndblmin v (bb_g d) (bb_e d).

  (** 162-188 *)
  Definition bb_eventUpdate : MF Status :=
    do d <- mdata in
    (if bb_bounces d
     then mmodd bb_bounce >> mmod (set_valuesChanged true)
     else mmod (set_valuesChanged false)) >>
    mmod (set_nominalsChanged false) >>
    mmod (set_terminateSimulation false) >>
    mmod (set_nextEventTimeDefined false) >>
    mmod (set_dirty true) >>
    mret OK.

  (** 200-211 *)
  Definition bb_getContinuousStates (x : Buf F) (nx : nat) : MF (Status * Buf F) :=
    arrGet x nx 2 (
    bb_calculateValues >>
    do d <- mdata in
    do x' <- writel x 0 [bb_h d; bb_v d] in
    mret (OK, x')).

  (** 213-224 *)
  Definition bb_getNominals (x : Buf F) (nx : nat) : MF (Status * Buf F) :=
    arrGet x nx 2 (
    bb_calculateValues >>
    do x' <- writel x 0 [nlit 1 0; nlit 1 0] in
    mret (OK, x')).

  (** 226-237 *)
  Definition bb_setContinuousStates (x : Buf F) (nx : nat) : MF Status :=
    arrSet x nx 2 (
    do h <- mrd x 0 in
    do v <- mrd x 1 in
    mmodd (fun d => set_bb_v v (set_bb_h h d)) >>
    mmod (set_dirty true) >> mret OK).

  (** 239-250 *)
  Definition bb_getDerivatives (dx : Buf F) (nx : nat) : MF (Status * Buf F) :=
    arrGet dx nx 2 (
    bb_calculateValues >>
    do d <- mdata in
    do dx' <- writel dx 0 [bb_v d; bb_g d] in
    mret (OK, dx')).

  (** 259-264 *)
  Definition bb_indicator (d : BBData F) : F :=
    if nlt (nopp EVENT_EPSILON) (bb_h d) && nle (bb_h d) nzero && nlt nzero (bb_v d)
    then nopp EVENT_EPSILON else bb_h d.
  (** 252-267 *)
  Definition bb_getEventIndicators (z : Buf F) (nz : nat) : MF (Status * Buf F) :=
    arrGet z nz 1 (
    bb_calculateValues >>
    do d <- mdata in
    do z' <- writel z 0 [bb_indicator d] in
    mret (OK, z')).

  Definition BouncingBall_model : Model F := {|
    md := BBData F; md0 := bb_zero; m_token := bb_token;
    m_modelExchange := true; m_scheduled := false;                     (* config.h *)
    m_eventUpdate := true; m_outputDerivative := true;
    m_maxX := 2; m_maxZ := 1; m_step := bb_step;
    m_setStartValues := bb_setStartValues;
    m_calculateValues := bb_calculateValues;
    m_get := fun t => match t return N -> Buf (val F t) -> nat -> nat -> MF (GetRes (val F t)) with
                      | TFloat64 => bb_getFloat64
                      | _ => get_not_allowed
                      end;
    m_set := fun t => match t return N -> Buf (val F t) -> nat -> nat -> MF SetRes with
                      | TFloat64 => bb_setFloat64
                      | _ => set_not_allowed
                      end;
    m_getBinary := getBinary_default; m_setBinary := setBinary_default;
    m_activateClock := activateClock_default; m_getClock := getClock_default;
    m_getInterval := getInterval_default; m_activateModelPartition := activate_default;
    m_nz := fun _ => 1;                                                (* 190-193 *)
    m_nx := fun _ => 2;                                                (* 195-198 *)
    m_getContinuousStates := bb_getContinuousStates; m_getNominals := bb_getNominals;
    m_setContinuousStates := bb_setContinuousStates; m_getDerivatives := bb_getDerivatives;
    m_getEventIndicators := bb_getEventIndicators;
    m_getOutputDerivative := bb_getOutputDerivative;
    m_getPartialDerivative := partial_default;
    m_eventUpdateF := bb_eventUpdate |}.
End BouncingBall.

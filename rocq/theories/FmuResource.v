(** FmuResource.v -- Resource/config.h and Resource/model.c (the non-Windows branch).
    Line numbers refer to Resource/model.c unless stated otherwise.  [eventUpdate]
    (163-174) is not called: config.h does not define EVENT_UPDATE. *)

From Coq Require Import List NArith ZArith Bool Arith.
From Coq.Init Require Import Byte.
From Verif Require Import Base Instance ModelIface.
Import ListNotations.
Set Implicit Arguments.

(** config.h ValueReference *)
Inductive REVar := REtime | REy.
Definition re_var (vr : N) : option REVar :=
  if N.eqb vr 0 then Some REtime else if N.eqb vr 1 then Some REy else None.

(** config.h ModelData: one int *)
Record REData := mkRE { re_y : Z }.

Definition re_token : bytes :=                                         (* config.h *)
  [Byte.x7b; Byte.x37; Byte.x62; Byte.x39; Byte.x63; Byte.x32; Byte.x31; Byte.x31; Byte.x34;
     Byte.x2d; Byte.x32; Byte.x63; Byte.x65; Byte.x35; Byte.x2d; Byte.x34; Byte.x30; Byte.x37;
     Byte.x36; Byte.x2d; Byte.x61; Byte.x31; Byte.x33; Byte.x38; Byte.x2d; Byte.x32; Byte.x63;
     Byte.x62; Byte.x63; Byte.x36; Byte.x39; Byte.x65; Byte.x30; Byte.x36; Byte.x39; Byte.x65;
     Byte.x35; Byte.x7d].

Definition MAX_PATH_LENGTH : nat := N.to_nat 4096.                     (* 13 *)

(** [strncmp(s, p, strlen(p)) == 0] *)
Fixpoint has_prefix (p s : bytes) : bool :=
  match p, s with
  | [], _ => true
  | x :: p', y :: s' => byte_eqb x y && has_prefix p' s'
  | _, _ => false
  end.

Definition s_scheme1 : bytes := (* "file:///", 59 *)
  [Byte.x66; Byte.x69; Byte.x6c; Byte.x65; Byte.x3a; Byte.x2f; Byte.x2f; Byte.x2f].
Definition s_scheme2 : bytes := (* "file:/", 60 *)
  [Byte.x66; Byte.x69; Byte.x6c; Byte.x65; Byte.x3a; Byte.x2f].
Definition s_slash_y : bytes := (* "/y.txt", 96 *)
  [Byte.x2f; Byte.x79; Byte.x2e; Byte.x74; Byte.x78; Byte.x74].
Definition s_y : bytes := (* "y.txt", 98 *)
  [Byte.x79; Byte.x2e; Byte.x74; Byte.x78; Byte.x74].

(** strtol(buf, NULL, 16) for a string of at most two characters (80): white space, a
    sign, then hexadecimal digits; a "0x" prefix leaves no room for a digit and gives 0. *)
Definition hexdigit (b : byte) : option Z :=
  let n := Z.of_N (Byte.to_N b) in
  if (48 <=? n)%Z && (n <=? 57)%Z then Some (n - 48)%Z
  else if (65 <=? n)%Z && (n <=? 70)%Z then Some (n - 55)%Z
  else if (97 <=? n)%Z && (n <=? 102)%Z then Some (n - 87)%Z
  else None.
Fixpoint hexdigits (acc : Z) (s : bytes) : Z :=
  match s with
  | [] => acc
  | b :: s' => match hexdigit b with Some d => hexdigits (acc * 16 + d)%Z s' | None => acc end
  end.
Definition isspace (b : byte) : bool :=
  let n := Byte.to_N b in ((9 <=? n)%N && (n <=? 13)%N) || N.eqb n 32.
Definition strtol_sign (s : bytes) : Z :=
  match s with
  | b :: s' => if N.eqb (Byte.to_N b) 45 then (- hexdigits 0 s')%Z
               else if N.eqb (Byte.to_N b) 43 then hexdigits 0 s' else hexdigits 0 s
  | [] => 0%Z
  end.
Fixpoint strtol16 (s : bytes) : Z :=
  match s with
  | b :: s' => if isspace b then strtol16 s' else strtol_sign s
  | [] => 0%Z
  end.
(** conversion of a long to char *)
Definition byte_of_Z (z : Z) : byte :=
  match Byte.of_N (Z.to_N (Z.modulo z 256)) with Some b => b | None => x00 end.

(** The loop 77-88 on the characters before the NUL of [path]: the characters written
    through [dst].  [dst] never overtakes [src]. *)
Fixpoint percent_decode (s : bytes) : bytes :=
  match s with
  | [] => []
  | b :: s' =>
      match s' with
      | h :: (l :: s'') =>
          if byte_eqb b x25 then byte_of_Z (strtol16 [h; l]) :: percent_decode s''
          else b :: percent_decode s'
      | _ => b :: percent_decode s'
      end
  end.

(** 58-100, FMI 2: the path to open, [None] if the scheme is wrong (67-68).  The bytes
    written by the decoder are read as a C string afterwards. *)
Definition path2 (loc : bytes) : option bytes :=
  let start := if has_prefix s_scheme1 loc then Some (skipn 7 loc)               (* 62-63 *)
               else if has_prefix s_scheme2 loc then Some (skipn 5 loc)          (* 64-65 *)
               else None in
  match start with
  | None => None
  | Some p =>
      let path := cstr (percent_decode (firstn (MAX_PATH_LENGTH - 1) p)) in
      Some (path ++ firstn (MAX_PATH_LENGTH - length path - 1) s_slash_y)        (* 96 *)
  end.
(** 92-100, FMI 3; [None]: no NUL within the array, undefined *)
Definition path3 (loc : bytes) : option bytes :=
  if Nat.ltb (length loc) MAX_PATH_LENGTH
  then Some (loc ++ firstn (MAX_PATH_LENGTH - length loc - 1) s_y)               (* 98 *)
  else None.

Section Resource.
  Context {F : Type} {NF : Num F} (fmi2 : bool).
  Open Scope mf_scope.
  Notation MF := (MF F REData).

  (** 15-23 *)
  Definition re_setStartValues : MF Status :=
    mmodd (fun _ => mkRE 0) >> mmod (set_dirty true) >> mret OK.

  (** 103-122 *)
  Definition re_read (path : bytes) : MF Status :=
    do e <- menv in
    match env_file e path with
    | None => fail
    | Some c => mmodd (fun _ => mkRE c) >> mmod (set_dirty false) >> mret OK
    end.

  (** 25-123 *)
  Definition re_calculateValues : MF Status :=
    do c <- mctl in
    match resourceLocation c with
    | None => fail                                                     (* 32-35 *)
    | Some loc =>
        if fmi2 then
          match path2 (cstr loc) with None => fail | Some p => re_read p end
        else
          match path3 (cstr loc) with None => mub | Some p => re_read p end
    end.

  (** 126-142; the status of calculateValues is ignored *)
  Definition re_getFloat64 (vr : N) (values : Buf F) (nValues index : nat) : MF (GetRes F) :=
    nnGet values index (
    re_calculateValues >>
    do c <- mctl in
    match re_var vr with
    | Some REtime => put1 values nValues index (time c)
    | _ => failGet values index
    end).

  (** 145-161; the status of calculateValues is ignored *)
  Definition re_getInt32 (vr : N) (values : Buf Z) (nValues index : nat) : MF (GetRes Z) :=
    nnGet values index (
    re_calculateValues >>
    do d <- mdata in
    match re_var vr with
    | Some REy => put1 values nValues index (re_y d)
    | _ => failGet values index
    end).

  Definition Resource_model : Model F := {|
    md := REData; md0 := mkRE 0; m_token := re_token;
    m_modelExchange := true; m_scheduled := false;                     (* config.h *)
    m_eventUpdate := false; m_outputDerivative := false;
    m_maxX := 0; m_maxZ := 0; m_step := nlit 1 0;
    m_setStartValues := re_setStartValues;
    m_calculateValues := re_calculateValues;
    m_get := fun t => match t return N -> Buf (val F t) -> nat -> nat -> MF (GetRes (val F t)) with
                      | TFloat64 => re_getFloat64
                      | TInt32 => re_getInt32
                      | _ => get_not_allowed
                      end;
    m_set := fun t => set_not_allowed;
    m_getBinary := getBinary_default; m_setBinary := setBinary_default;
    m_activateClock := activateClock_default; m_getClock := getClock_default;
    m_getInterval := getInterval_default; m_activateModelPartition := activate_default;
    m_nz := fun _ => 0;                                  (* default, cosimulation.c:529-534 *)
    m_nx := fun _ => 0;                                  (* default, cosimulation.c:495-499 *)
    m_getContinuousStates := states_default; m_getNominals := states_default;
    m_setContinuousStates := setStates_default; m_getDerivatives := states_default;
    m_getEventIndicators := indicators_default;
    m_getOutputDerivative := outputDerivative_absent;
    m_getPartialDerivative := partial_default;
    m_eventUpdateF := eventUpdate_absent |}.
End Resource.

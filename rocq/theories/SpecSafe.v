(** SpecSafe.v -- what a caller owes the API: the contract under which no call is undefined (C26). *)
From Coq Require Import List NArith ZArith Bool.
From Verif Require Import Base Instance ModelIface Fmi3 Fmi2 Api FmuStair FmuClocks FmuResource Fmus SpecModes.
Import ListNotations.
Set Implicit Arguments.

(** A pointer to at least [n] elements; NULL only for none. *)
Definition enough {T} (n : nat) (b : Buf T) : Prop := match b with Some l => n <= length l | None => n = 0 end.
(** The same, but NULL is allowed: the function checks for it. *)
Definition enough_or_null {T} (n : nat) (b : Buf T) : Prop := match b with Some l => n <= length l | None => True end.
Definition items {T} (b : Buf T) : list T := match b with Some l => l | None => [] end.
(** Strings handed over are not NULL. *)
Definition strings_given {F} (t : VType) : Buf (val F t) -> Prop :=
  match t return Buf (val F t) -> Prop with
  | TString => fun b => Forall (fun s => s <> None) (items b)
  | _ => fun _ => True
  end.
(** The k-th binary value has at least the k-th size. *)
Definition binaries_given (sizes : Buf nat) (values : Buf (option bytes)) : Prop :=
  forall k n v, nth_error (items sizes) k = Some n -> nth_error (items values) k = Some v ->
    exists b, v = Some b /\ n <= length b.

Section Contract.
  Context {F D : Type}.
  (** An FMU-state handle: NULL or the handle of a state that is not freed. *)
  Definition handle (s : Sys F D) (h : option nat) : Prop :=
    match h with None => True | Some k => exists i, nth_error (heap s) k = Some (Some i) end.

  Definition callable3 (s : Sys F D) (o : Op3 F D) : Prop :=
    match o with
    | O3SetDebugLogging _ n categories => enough_or_null n categories
    | O3Get t vrs nvr values nValues => enough_or_null nvr vrs /\ enough_or_null nValues values
    | O3Set t vrs nvr values nValues =>
        enough_or_null nvr vrs /\ enough nValues values /\ (t <> TFloat64 -> nvr <= nValues) /\ strings_given t values
    | O3GetBinary vrs nvr sizes values nValues =>
        enough_or_null nvr vrs /\ enough nValues sizes /\ enough_or_null nValues values
    | O3SetBinary vrs nvr sizes values nValues =>
        enough_or_null nvr vrs /\ enough nValues sizes /\ enough nValues values /\ nvr <= nValues /\ binaries_given sizes values
    | O3GetClock vrs nvr values | O3SetClock vrs nvr values => enough nvr vrs /\ enough nvr values
    | O3GetFMUState p h | O3FreeFMUState p h => p = true /\ handle s h
    | O3SetFMUState h => handle s h
    | O3SerializedFMUStateSize p => p = true
    | O3SerializeFMUState h dst size => handle s h /\ exists d, dst = Some d /\ (size <= bsize d)%N
    | O3DeserializeFMUState src size p h =>
        p = true /\ handle s h /\ exists b, src = Some b /\ (size <= bsize b)%N /\ bimage b <> None
    | O3GetDirectionalDerivative unknowns nu knowns nk seed sens =>
        enough nu unknowns /\ enough nk knowns /\ enough nk seed /\ enough nu sens
    | O3GetAdjointDerivative unknowns nu knowns nk seed sens =>
        enough nu unknowns /\ enough nk knowns /\ enough nu seed /\ enough nk sens
    | O3GetIntervalDecimal vrs nvr intervals qualifiers => enough nvr vrs /\ enough nvr intervals /\ enough nvr qualifiers
    | O3SetContinuousStates x n | O3GetContinuousStateDerivatives x n | O3GetEventIndicators x n
    | O3GetContinuousStates x n | O3GetNominalsOfContinuousStates x n => enough_or_null n x
    | O3GetNumberOfEventIndicators p | O3GetNumberOfContinuousStates p => p = true
    | O3GetOutputDerivatives vrs nvr orders values => enough nvr vrs /\ enough nvr orders /\ enough nvr values
    | O3DoStep _ _ p1 p2 p3 p4 => p1 = true /\ p2 = true /\ p3 = true /\ p4 = true
    | _ => True
    end.
  Definition callable2 (s : Sys F D) (o : Op2 F D) : Prop :=
    match o with
    | O2SetDebugLogging _ n categories => enough_or_null n categories
    | O2Get t vrs nvr values => enough_or_null nvr vrs /\ enough_or_null nvr values
    | O2Set t vrs nvr values => enough_or_null nvr vrs /\ enough_or_null nvr values /\ strings_given t values
    | O2GetBoolean vrs nvr values | O2SetBoolean vrs nvr values => enough nvr vrs /\ enough nvr values
    | O2GetFMUstate p h | O2FreeFMUstate p h => p = true /\ handle s h
    | O2SetFMUstate h => handle s h
    | O2SerializedFMUstateSize p => p = true
    | O2SerializeFMUstate h dst size => handle s h /\ exists d, dst = Some d /\ (size <= bsize d)%N
    | O2DeSerializeFMUstate src size p h =>
        p = true /\ handle s h /\ exists b, src = Some b /\ (size <= bsize b)%N /\ bimage b <> None
    | O2GetDirectionalDerivative unknowns nu knowns nk seed sens =>
        enough nu unknowns /\ enough nk knowns /\ enough nk seed /\ enough nu sens
    | O2GetRealOutputDerivatives vrs nvr orders values => enough nvr vrs /\ enough nvr orders /\ enough nvr values
    | O2GetRealStatus _ p | O2GetBooleanStatus _ p | O2NewDiscreteStates p => p = true
    | O2SetContinuousStates x n | O2GetDerivatives x n | O2GetEventIndicators x n
    | O2GetContinuousStates x n | O2GetNominals x n => enough_or_null n x
    | _ => True
    end.
End Contract.

(** The limits of the code itself: the int counters and the path buffer. *)
Section Limits.
  Context {F : Type} {NF : Num F}.
  (** The counter of Stair can be incremented. *)
  Definition counter_room (v : Version) (f : FMU) : Mut F (md (model_of v f)) -> Prop :=
    match f return Mut F (md (model_of v f)) -> Prop with
    | Stair => fun u => in_int (st_counter (data u) + 1) = true
    | _ => fun _ => True
    end.
  (** The partition of Clocks can be activated: the callback is given, the time fits an int (the
      code converts it) and so do the counters. *)
  Definition partition_room (v : Version) (f : FMU) (vr : N) (t : F) : Ctl F -> Mut F (md (model_of v f)) -> Prop :=
    match f return Ctl F -> Mut F (md (model_of v f)) -> Prop with
    | Clocks => fun c u => let d := data u in
        hasClockUpdate c = true /\ in_int (cl_total d + 1) = true /\
        (vr = 1001%N -> in_int (cl_t1 d + 1) = true /\ exists z, ntrunc t = Some z /\ in_int z = true) /\
        (vr = 1002%N -> in_int (cl_t2 d + 1) = true /\ in_int (cl_result2 d + cl_input2 d) = true) /\
        (vr = 1003%N -> in_int (cl_t3 d + 1) = true)
    | _ => fun _ _ => True
    end.
  (** The resource path of the FMI 3 build of Resource fits its buffer of 4096 bytes. *)
  Definition location_fits (v : Version) (f : FMU) (l : option bytes) : Prop :=
    f = Resource -> v = FMI3 -> forall loc, l = Some loc -> length (cstr loc) < MAX_PATH_LENGTH.

  Definition within3 (v : Version) (f : FMU) (i : Inst F (md (model_of v f))) (o : Op3 F (md (model_of v f))) : Prop :=
    location_fits v f (resourceLocation (ctl i)) /\
    match o with
    | O3DoStep _ _ _ _ _ _ | O3UpdateDiscreteStates => counter_room v f (mut i)
    | O3ActivateModelPartition vr t => partition_room v f vr t (ctl i) (mut i)
    | _ => True
    end.
  Definition within2 (v : Version) (f : FMU) (i : Inst F (md (model_of v f))) (o : Op2 F (md (model_of v f))) : Prop :=
    location_fits v f (resourceLocation (ctl i)) /\
    match o with
    | O2DoStep _ _ | O2NewDiscreteStates _ => counter_room v f (mut i)
    | _ => True
    end.

  (** Every call of a history keeps the contract at the moment it is made. *)
  Section Conforming.
    Context (v : Version) (f : FMU) (szof : N) (fuel : nat).
    Notation m := (model_of v f).
    Fixpoint conforming3 (l : list (Env * Op3 F (md m))) (s : Sys F (md m)) : Prop :=
      match l with
      | [] => True
      | (env, o) :: l' =>
          callable3 s o /\ within3 v f (sinst s) o /\ (forall i, image3 o = Some i -> saved3 m szof i) /\
          forall st out s' t, exec3 m szof fuel env o s = Done (st, out, s', t) -> conforming3 l' s'
      end.
    Fixpoint conforming2 (l : list (Env * Op2 F (md m))) (s : Sys F (md m)) : Prop :=
      match l with
      | [] => True
      | (env, o) :: l' =>
          callable2 s o /\ within2 v f (sinst s) o /\ (forall i, image2 o = Some i -> saved2 m szof i) /\
          forall st out s' t, exec2 m szof fuel env o s = Done (st, out, s', t) -> conforming2 l' s'
      end.
  End Conforming.
End Limits.
